(** * Consequences of the layout of CALS tables *)
From Verif Require Import Base M_Geometry M_Xml M_Cell M_Grid M_Table M_Str M_Cals M_CalsParser.
From Verif Require Import S_Geometry S_Grid S_Table S_Units S_Cals S_Int S_CalsParser.
From Verif Require Import P_Geometry P_Grid P_GridFacts P_Table P_TableFacts P_TableMore P_Int P_CalsParser P_CalsLayout P_CalsEvents P_CalsSim.
Open Scope list_scope.
Open Scope Z_scope.

(** ** Where the spots come from *)

Definition spot_from (ns : option string) (es : list xnode) (s : spot) : Prop :=
  (fst s = None /\ exists k, 1 <= cx k /\ 1 <= cy k /\ c_box (snd s) = MkBox k k) \/
  (exists e r i k w h, fst s = Some e /\ In e es /\ c_box (snd s) = seat Rows r i w h /\ entry_span ns e k w h /\
     1 <= r /\ 1 <= i /\ 1 <= w /\ 1 <= h).

Lemma spot_from_valid ns es s : spot_from ns es s -> valid (c_box (snd s)).
Proof.
  intros [(_ & k & H1 & H2 & ->)|(e & r & i & k & w & h & _ & _ & -> & _ & H)]; unfold valid; cbn; lia.
Qed.
Lemma spots_valid ns es g : (forall s, In s g -> spot_from ns es s) -> all_valid (map snd g).
Proof. intros H. apply Forall_map, Forall_forall. intros s Hs. apply (spot_from_valid ns es), H, Hs. Qed.
Lemma filled_from ns es bb na g g' : valid bb -> filled bb na g g' -> (forall s, In s g -> spot_from ns es s) -> forall s, In s g' -> spot_from ns es s.
Proof.
  intros V (ks & Hk & ->) H s Hs. apply in_app_iff in Hs as [Hs|Hs]; [|auto]. apply in_map_iff in Hs as (k & <- & Hin).
  apply (selects_In _ _ _ k Hk) in Hin as [Hin _]. apply area_in in Hin. left. split; [reflexivity|]. exists k.
  unfold covers, valid in *. split; [lia|]. split; [lia|reflexivity].
Qed.
Lemma settled_from ns watch es e g g' : settled ns watch e g g' -> (forall s, In s g -> spot_from ns es s) -> forall s, In s g' -> spot_from ns es s.
Proof.
  intros [n bb g1 _ _ _ Hb Hf|_] H; [|exact H]. eapply filled_from; eauto. apply Hb.
Qed.
Lemma spot_from_incl ns es es' s : incl es es' -> spot_from ns es s -> spot_from ns es' s.
Proof.
  intros Hi [H|(e & r & i & k & w & h & H1 & H2 & H)]; [left; exact H|]. right. exists e, r, i, k, w, h. auto.
Qed.
Lemma placed_from ns watch r na k es n g n2 g2 es0 : placed ns watch r na k es n g n2 g2 -> 1 <= r -> incl es es0 ->
  (forall s, In s g -> spot_from ns es0 s) -> forall s, In s g2 -> spot_from ns es0 s.
Proof.
  intros H Hr. induction H as [k n g|k e es n g i w h g1 n2 g2 Hs Hw Hh Hf Hc Hset Hp IH]; intros Hi Hg; [exact Hg|].
  apply IH; [intros x Hx; apply Hi; right; exact Hx|]. apply (settled_from _ _ _ _ _ _ Hset). intros s [<-|Hin]; [|auto].
  right. exists e, r, i, (k + 1), w, h. split; [reflexivity|]. split; [apply Hi; left; reflexivity|]. split; [reflexivity|].
  split; [exact Hs|]. split; [exact Hr|]. split; [apply Hf|]. auto.
Qed.
Lemma lays_from ns watch its l l' es0 : lays ns watch its l l' -> 0 <= l_row l -> incl (entries_of ns its) es0 ->
  (forall s, In s (l_spots l) -> spot_from ns es0 s) -> 0 <= l_row l' /\ forall s, In s (l_spots l') -> spot_from ns es0 s.
Proof.
  intros H. induction H as [l|c its r k n g cs m l' Hm H IH|na sec row its r k n g cs n1 g1 g2 l' Hp Hn Hf H IH]; intros Hr Hi Hg; [auto| |].
  - apply IH; auto.
  - cbn [l_row l_spots] in *. cbn [entries_of flat_map] in Hi. apply incl_app_inv in Hi as [Hi1 Hi2]. apply IH; [lia|exact Hi2|].
    eapply filled_from; [|exact Hf|]; [unfold valid; cbn; lia|]. eapply placed_from; eauto. lia.
Qed.
Lemma laid_out_from ns watch e l g : laid_out ns watch e l g -> forall s, In s g -> spot_from ns (entries_of ns (items ns e)) s.
Proof.
  intros (HL & bb & Hb & Hf). destruct (lays_from ns watch _ _ _ (entries_of ns (items ns e)) HL) as [_ HS]; [cbn; lia|apply incl_refl|intros s []|].
  eapply filled_from; eauto. apply Hb.
Qed.

(** ** No overlap *)

Lemma clash_free_overlap a b : valid a -> valid b -> ~ clash a b -> overlap a b ->
  cy (bmin a) < cy (bmax a) /\ cx (bmin b) < cx (bmax b) \/ cy (bmin b) < cy (bmax b) /\ cx (bmin a) < cx (bmax a).
Proof.
  intros Va Vb HC ([x y] & Ha & Hb). unfold clash, covers, valid in *. cbn in *. lia.
Qed.
Lemma ordpairs_impl {A} (R S : A -> A -> Prop) l : (forall a b, In a l -> In b l -> R a b -> S a b) -> ForallOrdPairs R l -> ForallOrdPairs S l.
Proof.
  intros H HF. induction HF as [|a l Ha HF IH]; constructor.
  - apply Forall_forall. intros b Hb. rewrite Forall_forall in Ha. apply H; [left; reflexivity|right; exact Hb|auto].
  - apply IH. intros x y Hx Hy. apply H; right; assumption.
Qed.
Lemma no_clash_thin g : all_valid g -> no_clash g ->
  ((forall c, In c g -> cy (bmin (c_box c)) = cy (bmax (c_box c))) \/ (forall c, In c g -> cx (bmin (c_box c)) = cx (bmax (c_box c)))) ->
  no_overlap g.
Proof.
  intros HV HC Hthin. unfold all_valid in HV. rewrite Forall_forall in HV. eapply ordpairs_impl; [|exact HC].
  intros a b Ha Hb HN HO. pose proof (clash_free_overlap _ _ (HV a Ha) (HV b Hb) HN HO).
  destruct Hthin as [Ht|Ht]; rewrite <- !Ht in H by assumption; lia.
Qed.
Lemma span_height ns e k w h : attribute ns e "morerows" = None -> entry_span ns e k w h -> h = 1.
Proof. intros E [_ H]. rewrite E in H. exact H. Qed.
Lemma span_width ns e k w h : attribute ns e "namest" = None -> attribute ns e "nameend" = None -> entry_span ns e k w h -> w = 1.
Proof. intros E1 E2 [(a & b & H1 & H2 & H) _]. unfold names_column in *. rewrite E1 in H1. rewrite E2 in H2. lia. Qed.
Lemma pictures_spot ns cells g c : pictures ns cells g -> In c cells -> exists s, In s g /\ c_box c = c_box (snd s).
Proof.
  intros (l & HP & HF) Hc. apply (Permutation_in _ (Permutation_sym HP)) in Hc. clear HP.
  induction HF as [|x s l g Hx HF IH]; [destruct Hc|]. destruct Hc as [<-|Hc].
  - exists s. split; [left; reflexivity|]. apply Hx.
  - destruct (IH Hc) as (s' & Hs & E). exists s'. split; [right; exact Hs|exact E].
Qed.
Lemma pictures_cell ns cells g s : pictures ns cells g -> In s g -> exists c, In c cells /\ shows ns c s.
Proof.
  intros (l & HP & HF) Hs. assert (HX : exists c, In c l /\ shows ns c s).
  { clear HP. induction HF as [|x s' l g Hx HF IH]; [destruct Hs|]. destruct Hs as [<-|Hs].
    - exists x. split; [left; reflexivity|exact Hx].
    - destruct (IH Hs) as (c & Hc & H). exists c. split; [right; exact Hc|exact H]. }
  destruct HX as (c & Hc & H). exists c. split; [|exact H]. eapply Permutation_in; eauto.
Qed.

(** ** Nested tables *)

Lemma bounds_exist g : all_valid g -> g <> [] -> exists bb, bounds g bb.
Proof.
  intros HV Hn. destruct (bounding_box_spec g HV) as [[E _]|(_ & bb & E & _)]; [congruence|]. exists bb. apply grid_bounds; assumption.
Qed.
Lemma filled_none bb na g : (forall k, covers bb k -> ~ free (map snd g) k) -> filled bb na g g.
Proof.
  intros H. exists []. split; [|reflexivity].
  assert (HX : forall l, (forall k, In k l -> covers bb k) -> selects (free (map snd g)) l []).
  { induction l as [|k l IH]; intros Hl; [constructor|]. apply sel_out; [apply H, Hl; left; reflexivity|]. apply IH. intros x Hx. apply Hl. right. exact Hx. }
  apply HX. intros k. apply area_in.
Qed.
Lemma settled_false ns e g g' : settled ns false e g g' -> g' = g.
Proof. intros [n bb g1 H _ _ _ _|_]; [discriminate|reflexivity]. Qed.
Lemma settled_full ns e es g : (forall s, In s g -> spot_from ns es s) -> g <> [] ->
  (~ has_nested ns e \/ no_hole (map snd g)) -> (has_nested ns e \/ ~ has_nested ns e) -> settled ns true e g g.
Proof.
  intros Hg Hne HH [Hn|Hn].
  - destruct HH as [HH|HH]; [contradiction|]. destruct (bounds_exist (map snd g)) as (bb & Hb).
    + apply (spots_valid ns es), Hg.
    + destruct g; [congruence|discriminate].
    + destruct Hn as (n & Hin & Hn). eapply settled_nested; eauto. apply filled_none. intros k Hk. exact (HH bb k Hb Hk).
  - apply settled_plain. intros [_ (n & H)]. apply Hn. exists n. exact H.
Qed.

(** It is decidable whether a node has a table. *)
Lemma named_dec ns name n : named ns name n \/ ~ named ns name n.
Proof.
  unfold named. destruct (x_tag n) as [t|]; [|right; discriminate].
  destruct (string_dec t (expanded ns name)) as [->|H]; [left; reflexivity|right; congruence].
Qed.
Lemma has_nested_dec' ns l : (forall c, In c l -> nests ns c \/ ~ nests ns c) -> (exists n, In n l /\ nests ns n) \/ ~ (exists n, In n l /\ nests ns n).
Proof.
  induction l as [|c l IH]; intros H; [right; intros (n & [] & _)|].
  destruct (H c (or_introl eq_refl)) as [Hc|Hc]; [left; exists c; split; [left; reflexivity|exact Hc]|].
  destruct IH as [(n & Hin & Hn)|Hno]; [intros d Hd; apply H; right; exact Hd|left; exists n; split; [right; exact Hin|exact Hn]|].
  right. intros (n & [<-|Hin] & Hn); [contradiction|]. apply Hno. eauto.
Qed.
Lemma nests_dec ns n : nests ns n \/ ~ nests ns n.
Proof.
  induction n as [tag at0 text children tail IH|? ? ?|? ?] using xnode_ind'.
  - destruct (named_dec ns "table" (XElem tag at0 text children tail)) as [H|H]; [left; apply nests_here, H|].
    rewrite Forall_forall in IH. destruct (has_nested_dec' ns children IH) as [(c & Hc & Hn)|Hno].
    + left. eapply nests_below; [exact Hc|exact Hn].
    + right. intros HN. inversion HN as [? Ht|? c Hc Hn]; subst; [contradiction|]. apply Hno. eauto.
  - right. intros HN. inversion HN as [? Ht|? c Hc Hn]; subst; [discriminate Ht|destruct Hc].
  - right. intros HN. inversion HN as [? Ht|? c Hc Hn]; subst; [discriminate Ht|destruct Hc].
Qed.
Lemma has_nested_dec ns e : has_nested ns e \/ ~ has_nested ns e.
Proof. apply has_nested_dec'. intros c _. apply nests_dec. Qed.

Lemma placed_snoc ns watch r na k es e n g n1 g1 : placed ns watch r na k es n g n1 g1 ->
  forall i w h g2, entry_span ns e (k + Z.of_nat (List.length es) + 1) w h -> 1 <= w -> 1 <= h -> first_free Rows r i (map snd g1) ->
  (forall d, In d (map snd g1) -> ~ clash (c_box d) (seat Rows r i w h)) ->
  settled ns watch e ((Some e, bare (content_of e) na (seat Rows r i w h)) :: g1) g2 ->
  placed ns watch r na k (es ++ [e]) n g (Z.max n1 (i + w - 1)) g2.
Proof.
  induction 1 as [k n g|k x es n g i w h g1 n2 g2 Hs Hw Hh Hf Hc Hset Hp IH]; intros i' w' h' g3 Hs' Hw' Hh' Hf' Hc' Hset'; cbn [app].
  - cbn [List.length] in Hs'. replace (k + Z.of_nat 0 + 1) with (k + 1) in Hs' by lia.
    apply (placed_cons ns watch r na k e [] n g i' w' h' g3 _ g3); auto. constructor.
  - econstructor; eauto. eapply IH; eauto. cbn [List.length] in Hs'.
    replace (k + 1 + Z.of_nat (List.length es) + 1) with (k + Z.of_nat (S (List.length es)) + 1) by lia. exact Hs'.
Qed.

Section Tight.
  Variable ns : option string.
  Variable table : xnode.
  Hypothesis tight : forall e g, reaches ns table e g -> has_nested ns e -> no_hole (map snd g).
  Notation l0 := (MkLayout 0 0 0 [] (fun _ _ => None)).
  Notation all := (entries_of ns (items ns table)).

  Lemma placed_tight its1 na sec row its2 l : items ns table = its1 ++ Row na sec row :: its2 -> lays ns false its1 l0 l ->
    forall es2 es1 n g n2 g2, of_name ns "entry" (x_children row) = es1 ++ es2 ->
    placed ns false (l_row l + 1) (Some na) 0 es1 (l_cols l) (l_spots l) n g ->
    placed ns false (l_row l + 1) (Some na) (Z.of_nat (List.length es1)) es2 n g n2 g2 ->
    placed ns true (l_row l + 1) (Some na) (Z.of_nat (List.length es1)) es2 n g n2 g2.
  Proof.
    intros Hits HL.
    destruct (lays_from ns false its1 l0 l all HL) as [Hrow Hspots].
    { cbn; lia. } { unfold entries_of. rewrite Hits, flat_map_app. apply incl_appl, incl_refl. } { intros s []. }
    induction es2 as [|e es2 IH]; intros es1 n g n2 g2 Hes H1 H2.
    - inversion H2; subst. constructor.
    - apply placed_inv in H2 as (i & w & h & g1 & Hs & Hw & Hh & Hf & Hc & Hset & Hp). pose proof (settled_false _ _ _ _ Hset) as ->.
      assert (H1' : placed ns false (l_row l + 1) (Some na) 0 (es1 ++ [e]) (l_cols l) (l_spots l) (Z.max n (i + w - 1))
        ((Some e, bare (content_of e) (Some na) (seat Rows (l_row l + 1) i w h)) :: g)).
      { eapply placed_snoc; eauto. }
      econstructor; eauto.
      + apply (settled_full ns e all); [|discriminate| |apply has_nested_dec].
        * apply (placed_from _ _ _ _ _ _ _ _ _ _ all H1'); [lia| |exact Hspots].
          unfold entries_of. rewrite Hits, flat_map_app. cbn [flat_map]. rewrite Hes.
          intros x Hx. apply in_app_iff. right. apply in_app_iff. left. apply in_app_iff in Hx as [Hx|[<-|[]]]; apply in_app_iff; [left; exact Hx|right; left; reflexivity].
        * destruct (has_nested_dec ns e) as [Hn|Hn]; [right|left; exact Hn]. apply (tight e); [|exact Hn].
          exists its1, na, sec, row, its2, es1, es2, l, (Z.max n (i + w - 1)). auto.
      + replace (Z.of_nat (List.length es1) + 1) with (Z.of_nat (List.length (es1 ++ [e]))) in * by (rewrite app_length; cbn; lia).
        apply IH; [rewrite <- app_assoc; exact Hes|exact H1'|exact Hp].
  Qed.
  Lemma lays_tight its2 : forall its1 l l', items ns table = its1 ++ its2 -> lays ns false its1 l0 l -> lays ns false its2 l l' -> lays ns true its2 l l'.
  Proof.
    induction its2 as [|[c|na sec row] its2 IH]; intros its1 l l' Hits HL H.
    - inversion H; subst. constructor.
    - destruct l as [r k n g cs]. apply lays_column_inv in H as (m & Hm & H). econstructor; [exact Hm|].
      apply (IH (its1 ++ [Column c])); [rewrite <- app_assoc; exact Hits| |exact H].
      eapply lays_app; [exact HL|]. econstructor; [exact Hm|constructor].
    - destruct l as [r k n g cs]. apply lays_row_inv in H as (n1 & g1 & g2 & Hp & Hn & Hf & H).
      pose proof (placed_tight its1 na sec row its2 _ Hits HL (of_name ns "entry" (x_children row)) [] n g n1 g1 eq_refl) as HT.
      cbn [List.length l_row l_cols l_spots] in HT.
      econstructor; [apply HT; [constructor|exact Hp]|exact Hn|exact Hf|].
      apply (IH (its1 ++ [Row na sec row])); [rewrite <- app_assoc; exact Hits| |exact H].
      eapply lays_app; [exact HL|]. econstructor; eauto. constructor.
  Qed.
  Lemma laid_out_tight l g : laid_out ns false table l g -> laid_out ns true table l g.
  Proof. intros [HL Hb]. split; [|exact Hb]. apply (lays_tight (items ns table) []); [reflexivity|constructor|exact HL]. Qed.
  Lemma placed_tight_inv its1 na sec row its2 l : items ns table = its1 ++ Row na sec row :: its2 -> lays ns false its1 l0 l ->
    forall es2 es1 n g n2 g2, of_name ns "entry" (x_children row) = es1 ++ es2 ->
    placed ns false (l_row l + 1) (Some na) 0 es1 (l_cols l) (l_spots l) n g ->
    placed ns true (l_row l + 1) (Some na) (Z.of_nat (List.length es1)) es2 n g n2 g2 ->
    placed ns false (l_row l + 1) (Some na) (Z.of_nat (List.length es1)) es2 n g n2 g2.
  Proof.
    intros Hits HL.
    destruct (lays_from ns false its1 l0 l all HL) as [Hrow Hspots].
    { cbn; lia. } { unfold entries_of. rewrite Hits, flat_map_app. apply incl_appl, incl_refl. } { intros s []. }
    induction es2 as [|e es2 IH]; intros es1 n g n2 g2 Hes H1 H2.
    - inversion H2; subst. constructor.
    - apply placed_inv in H2 as (i & w & h & g1 & Hs & Hw & Hh & Hf & Hc & Hset & Hp). 
      assert (H1' : placed ns false (l_row l + 1) (Some na) 0 (es1 ++ [e]) (l_cols l) (l_spots l) (Z.max n (i + w - 1))
        ((Some e, bare (content_of e) (Some na) (seat Rows (l_row l + 1) i w h)) :: g)).
      { eapply placed_snoc; eauto. apply settled_plain. intros [HX _]. discriminate. }
      assert (HST : settled ns true e ((Some e, bare (content_of e) (Some na) (seat Rows (l_row l + 1) i w h)) :: g)
        ((Some e, bare (content_of e) (Some na) (seat Rows (l_row l + 1) i w h)) :: g)).
      { apply (settled_full ns e all); [|discriminate| |apply has_nested_dec].
        * apply (placed_from _ _ _ _ _ _ _ _ _ _ all H1'); [lia| |exact Hspots].
          unfold entries_of. rewrite Hits, flat_map_app. cbn [flat_map]. rewrite Hes.
          intros x Hx. apply in_app_iff. right. apply in_app_iff. left. apply in_app_iff in Hx as [Hx|[<-|[]]]; apply in_app_iff; [left; exact Hx|right; left; reflexivity].
        * destruct (has_nested_dec ns e) as [Hn|Hn]; [right|left; exact Hn]. apply (tight e); [|exact Hn].
          exists its1, na, sec, row, its2, es1, es2, l, (Z.max n (i + w - 1)). auto. }
      pose proof (settled_fun _ _ _ _ _ _ Hset HST) as ->. econstructor; eauto.
      + apply settled_plain. intros [HX _]. discriminate.
      + replace (Z.of_nat (List.length es1) + 1) with (Z.of_nat (List.length (es1 ++ [e]))) in * by (rewrite app_length; cbn; lia).
        apply IH; [rewrite <- app_assoc; exact Hes|exact H1'|exact Hp].
  Qed.
  Lemma lays_tight_inv its2 : forall its1 l l', items ns table = its1 ++ its2 -> lays ns false its1 l0 l -> lays ns true its2 l l' -> lays ns false its2 l l'.
  Proof.
    induction its2 as [|[c|na sec row] its2 IH]; intros its1 l l' Hits HL H.
    - inversion H; subst. constructor.
    - destruct l as [r k n g cs]. apply lays_column_inv in H as (m & Hm & H). econstructor; [exact Hm|].
      apply (IH (its1 ++ [Column c])); [rewrite <- app_assoc; exact Hits| |exact H].
      eapply lays_app; [exact HL|]. econstructor; [exact Hm|constructor].
    - destruct l as [r k n g cs]. apply lays_row_inv in H as (n1 & g1 & g2 & Hp & Hn & Hf & H).
      pose proof (placed_tight_inv its1 na sec row its2 _ Hits HL (of_name ns "entry" (x_children row)) [] n g n1 g1 eq_refl) as HT.
      cbn [List.length l_row l_cols l_spots] in HT.
      econstructor; [apply HT; [constructor|exact Hp]|exact Hn|exact Hf|].
      apply (IH (its1 ++ [Row na sec row])); [rewrite <- app_assoc; exact Hits| |exact H].
      eapply lays_app; [exact HL|]. econstructor; [apply HT; [constructor|exact Hp]|exact Hn|exact Hf|constructor].
  Qed.
  Lemma laid_out_tight_inv l g : laid_out ns true table l g -> laid_out ns false table l g.
  Proof. intros [HL Hb]. split; [|exact Hb]. apply (lays_tight_inv (items ns table) []); [reflexivity|constructor|exact HL]. Qed.
End Tight.

(** Without nested tables *)
Lemma placed_plain ns r na k es n g n2 g2 : (forall e, In e es -> ~ has_nested ns e) ->
  placed ns true r na k es n g n2 g2 -> placed ns false r na k es n g n2 g2.
Proof.
  intros H HP. induction HP as [k n g|k e es n g i w h g1 n2 g2 Hs Hw Hh Hf Hc Hset Hp IH]; [constructor|].
  econstructor; eauto.
  - destruct Hset as [m bb g1 _ Hin Hn _ _|_]; [exfalso; apply (H e (or_introl eq_refl)); exists m; auto|].
    apply settled_plain. intros [HX _]. discriminate.
  - apply IH. intros x Hx. apply H. right. exact Hx.
Qed.
Lemma lays_plain ns its l l' : (forall e, In e (entries_of ns its) -> ~ has_nested ns e) -> lays ns true its l l' -> lays ns false its l l'.
Proof.
  intros H HL. induction HL as [l|c its r k n g cs m l' Hm HL IH|na sec row its r k n g cs n1 g1 g2 l' Hp Hn Hf HL IH]; [constructor| |].
  - econstructor; eauto.
  - cbn [entries_of flat_map] in H. econstructor; eauto.
    + apply placed_plain; [|exact Hp]. intros e He. apply H, in_app_iff. left. exact He.
    + apply IH. intros e He. apply H, in_app_iff. right. exact He.
Qed.

(** ** Entries which name the columns in turn *)

Definition below (r j : Z) (g : list spot) : Prop :=
  forall s, In s g -> cy (bmax (c_box (snd s))) < r \/
    (cy (bmax (c_box (snd s))) = r /\ cx (bmax (c_box (snd s))) < j).
Lemma seat_row r i w h : seat Rows r i w h = MkBox (Coord i r) (Coord (i + w - 1) (r + h - 1)).
Proof. reflexivity. Qed.

Lemma placed_turn ns r na es : forall k j n g n2 g2,
  placed ns false r na k es n g n2 g2 -> in_turn ns j es -> (forall e, In e es -> attribute ns e "morerows" = None) -> 1 <= j ->
  below r j g -> (forall i, 1 <= i < j -> ~ free (map snd g) (Coord i r)) ->
  (exists j', below r j' g2) /\ incl g g2 /\
  forall e s s' a b, In e es -> attribute ns e "namest" = Some s -> first_number s a -> attribute ns e "nameend" = Some s' -> first_number s' b ->
    In (Some e, bare (content_of e) na (MkBox (Coord a r) (Coord b r))) g2.
Proof.
  induction es as [|e es IH]; intros k j n g n2 g2 H HT Hm Hj HB HF.
  - inversion H; subst. split; [eauto|]. split; [apply incl_refl|]. intros e s s' a b [].
  - apply placed_inv in H as (i & w & h & g1 & Hs & Hw & Hh & Hf & Hc & Hset & Hp). pose proof (settled_false _ _ _ _ Hset) as ->.
    assert (Eh : h = 1) by (eapply span_height; [apply Hm; left; reflexivity|exact Hs]). subst h.
    assert (Ei : i = j).
    { eapply first_free_fun; [exact Hf|]. split; [lia|]. split; [|intros i' Hi'; apply HF, Hi'].
      intros d Hd. apply in_map_iff in Hd as (s & <- & Hin). cbn [place]. unfold covers. cbn. destruct (HB s Hin); lia. }
    subst i.
    assert (HX : exists b, in_turn ns (b + 1) es /\ b = j + w - 1 /\
      forall s s' a b', attribute ns e "namest" = Some s -> first_number s a -> attribute ns e "nameend" = Some s' -> first_number s' b' -> a = j /\ b' = b).
    { assert (HS : exists a b, names_column ns e "namest" (k + 1) a /\ names_column ns e "nameend" (k + 1) b /\ w = b - a + 1) by apply Hs.
      destruct HS as (a & b & Ha & Hb & Ew). unfold names_column in Ha, Hb.
      inversion HT as [|? ? ? s s' b0 E1 N1 E2 N2 Hle HT'|? ? ? E1 E2 HT']; subst.
      - rewrite E1 in Ha. rewrite E2 in Hb. pose proof (first_number_fun _ _ _ N1 Ha). pose proof (first_number_fun _ _ _ N2 Hb). subst.
        exists b. split; [exact HT'|]. split; [lia|]. intros s1 s2 a' b' X1 X2 X3 X4. rewrite E1 in X1. rewrite E2 in X3.
        injection X1 as <-. injection X3 as <-. split; eapply first_number_fun; eassumption.
      - rewrite E1 in Ha. rewrite E2 in Hb. subst. exists j. split; [exact HT'|]. split; [lia|]. intros s1 s2 a' b' X1. congruence. }
    destruct HX as (b & HT' & Eb & HN).
    set (s0 := (Some e, bare (content_of e) na (seat Rows r j w 1))) in *.
    destruct (IH (k + 1) (b + 1) _ _ _ _ Hp HT') as (HB' & HI & HE).
    + intros x Hx. apply Hm. right. exact Hx.
    + lia.
    + intros s [<-|Hin].
      * cbn. right. split; [lia|]. lia.
      * destruct (HB s Hin); [left; lia|right; lia].
    + intros i Hi. cbn [map]. intros Hfr. destruct (Z_lt_ge_dec i j) as [Hlt|Hge].
      * apply (HF i ltac:(lia)). intros d Hd. apply Hfr. right. exact Hd.
      * apply (Hfr (snd s0)); [left; reflexivity|]. unfold covers. cbn. lia.
    + split; [exact HB'|]. split; [intros x Hx; apply HI; right; exact Hx|].
      intros e' s s' a b' [<-|Hin] X1 X2 X3 X4; [|eapply HE; eauto].
      destruct (HN s s' a b' X1 X2 X3 X4) as [-> ->]. apply HI. left. unfold s0. rewrite seat_row. rewrite Eb. do 4 f_equal. lia.
Qed.
Lemma filled_incl bb na g g' : filled bb na g g' -> incl g g'.
Proof. intros (ks & _ & ->). apply incl_appr, incl_refl. Qed.
Lemma filled_below r bb na g g' j : filled bb na g g' -> cy (bmax bb) <= r -> below r j g -> exists j', below r j' g'.
Proof.
  intros (ks & Hk & ->) Hb HB. exists (Z.max j (cx (bmax bb) + 1)). intros s Hs. apply in_app_iff in Hs as [Hs|Hs].
  - apply in_map_iff in Hs as (k & <- & Hin). apply (selects_In _ _ _ k Hk) in Hin as [Hin _]. apply area_in in Hin.
    unfold covers in Hin. cbn. lia.
  - destruct (HB s Hs); lia.
Qed.
Lemma lays_turn ns its : forall l l',
  lays ns false its l l' ->
  (forall na sec row, In (Row na sec row) its -> in_turn ns 1 (of_name ns "entry" (x_children row))) ->
  (forall e, In e (entries_of ns its) -> attribute ns e "morerows" = None) -> 0 <= l_row l ->
  (exists j, below (l_row l) j (l_spots l)) ->
  incl (l_spots l) (l_spots l') /\
  forall i na sec row e s s' a b, nth_error (row_items its) i = Some (na, sec, row) -> In e (of_name ns "entry" (x_children row)) ->
    attribute ns e "namest" = Some s -> first_number s a -> attribute ns e "nameend" = Some s' -> first_number s' b ->
    In (Some e, bare (content_of e) (Some na) (MkBox (Coord a (l_row l + 1 + Z.of_nat i)) (Coord b (l_row l + 1 + Z.of_nat i)))) (l_spots l').
Proof.
  induction its as [|[c|na sec row] its IH]; intros l l' H HT Hm Hr HB.
  - inversion H; subst. split; [apply incl_refl|]. intros i na sec row e s s' a b Hi. destruct i; discriminate.
  - destruct l as [r k n g cs]. apply lays_column_inv in H as (m & _ & H).
    apply (IH _ _ H); auto. intros na sec row Hin. eapply HT. right. exact Hin.
  - destruct l as [r k n g cs]. apply lays_row_inv in H as (n1 & g1 & g2 & Hp & Hn & Hf & H). cbn [l_row l_spots] in *.
    destruct HB as (j0 & HB).
    destruct (placed_turn ns (r + 1) (Some na) _ 0 1 n g n1 g1 Hp (HT na sec row (or_introl eq_refl))) as ((j1 & HB1) & HI1 & HE1).
    { intros e He. apply Hm. cbn [entries_of flat_map]. apply in_app_iff. left. exact He. } { lia. }
    { intros s Hs. left. destruct (HB s Hs); lia. } { intros i Hi. lia. }
    destruct (filled_below (r + 1) _ _ _ _ j1 Hf ltac:(cbn; lia) HB1) as (j2 & HB2).
    destruct (IH _ _ H) as (HI & HE); cbn [l_row l_spots] in *.
    + intros na' sec' row' Hin. eapply HT. right. exact Hin.
    + intros e He. apply Hm. cbn [entries_of flat_map]. apply in_app_iff. right. exact He.
    + lia.
    + eauto.
    + split; [intros x Hx; apply HI, (filled_incl _ _ _ _ Hf), HI1, Hx|].
      intros i na' sec' row' e s s' a b Hi He X1 X2 X3 X4. cbn [row_items flat_map app] in Hi. destruct i as [|i]; cbn [nth_error] in Hi.
      * injection Hi as <- <- <-. replace (r + 1 + Z.of_nat 0) with (r + 1) by lia. apply HI, (filled_incl _ _ _ _ Hf). eapply HE1; eauto.
      * replace (r + 1 + Z.of_nat (S i)) with (r + 1 + 1 + Z.of_nat i) by lia. eapply HE; eauto.
Qed.

(** ** Nested tables in the first row *)

Definition flush (m : Z) (g : list cell) : Prop :=
  (forall d, In d g -> forall k, covers (c_box d) k -> cy k = 1 /\ 1 <= cx k <= m) /\
  forall i, 1 <= i <= m -> ~ free g (Coord i 1).
Lemma flush_no_hole m g : 1 <= m -> flush m g -> no_hole g.
Proof.
  intros Hm [H1 H2] bb k (_ & _ & Hl) Hk.
  assert (HX : covers (MkBox (Coord 1 1) (Coord m 1)) k).
  { apply (Hl (MkBox (Coord 1 1) (Coord m 1))); [unfold valid; cbn; lia| |exact Hk]. intros c Hc k' Hk'. destruct (H1 c Hc k' Hk'). unfold covers. cbn. lia. }
  destruct k as [x y]. unfold covers in HX. cbn in HX. replace y with 1 by lia. apply H2. lia.
Qed.
Lemma placed_flush ns na es : forall k n g n2 g2 m,
  placed ns false 1 na k es n g n2 g2 -> (forall e, In e es -> attribute ns e "morerows" = None) -> 0 <= m -> flush m (map snd g) ->
  exists m', m + Z.of_nat (List.length es) <= m' /\ flush m' (map snd g2).
Proof.
  induction es as [|e es IH]; intros k n g n2 g2 m H Hm H0 HF.
  - inversion H; subst. exists m. cbn. split; [lia|exact HF].
  - apply placed_inv in H as (i & w & h & g1 & Hs & Hw & Hh & Hf & Hc & Hset & Hp). pose proof (settled_false _ _ _ _ Hset) as ->.
    assert (Eh : h = 1) by (eapply span_height; [apply Hm; left; reflexivity|exact Hs]). subst h.
    destruct HF as [H1 H2].
    assert (Ei : i = m + 1).
    { eapply first_free_fun; [exact Hf|]. split; [lia|]. split; [|intros i' Hi'; apply H2; lia].
      intros d Hd Hk. apply H1 in Hk; [|exact Hd]. cbn in Hk. lia. }
    subst i. apply (IH _ _ _ _ _ (m + w)) in Hp as (m' & Hle & HF').
    + exists m'. cbn [List.length]. split; [lia|exact HF'].
    + intros x Hx. apply Hm. right. exact Hx.
    + lia.
    + split; cbn [map snd].
      * intros d [<-|Hd] k' Hk'; [unfold covers in Hk'; cbn in Hk'; lia|]. specialize (H1 d Hd k' Hk'). lia.
      * intros i Hi Hfr. destruct (Z_le_gt_dec i m) as [Hle|Hgt].
        -- apply (H2 i ltac:(lia)). intros d Hd. apply Hfr. right. exact Hd.
        -- eapply Hfr; [left; reflexivity|]. unfold covers. cbn. lia.
Qed.
Lemma lays_columns ns watch its : forall l l', row_items its = [] -> lays ns watch its l l' -> l_row l' = l_row l /\ l_spots l' = l_spots l.
Proof.
  induction its as [|it its IH]; intros l l' Hr H; [inversion H; auto|].
  inversion H; subst; [|discriminate Hr]. apply IH in H4 || (match goal with X : lays _ _ its _ _ |- _ => apply IH in X end); [|exact Hr]. cbn in *. assumption.
Qed.
Lemma first_row_tight ns table na sec row its : forall its0,
  items ns table = its0 ++ Row na sec row :: its -> row_items its0 = [] ->
  (forall e, In e (of_name ns "entry" (x_children row)) -> attribute ns e "morerows" = None) ->
  (forall e, In e (entries_of ns its) -> ~ has_nested ns e) ->
  forall e g, reaches ns table e g -> has_nested ns e -> no_hole (map snd g).
Proof.
  intros its0 E Hr Hm Hn e g (its1 & na' & sec' & row' & its2 & es1 & es2 & l & n & E' & HL & Ees & HP) Hne. rewrite E in E'.
  assert (HX : (row_items its1 = [] /\ row' = row) \/ In e (entries_of ns its)).
  { clear E HL HP Hm Hn. revert its1 E'. induction its0 as [|it its0 IH]; intros its1 E'; destruct its1 as [|it1 its1]; cbn in E'.
    - injection E' as -> -> -> _. left. auto.
    - injection E' as <- ->. right. unfold entries_of. rewrite flat_map_app. cbn [flat_map]. apply in_app_iff. right. apply in_app_iff. left.
      rewrite Ees. apply in_app_iff. right. left. reflexivity.
    - injection E' as -> _. discriminate Hr.
    - injection E' as <- E'. destruct it; [|discriminate Hr]. destruct (IH Hr its1 E') as [[Ha Hb]|Ha]; [left|right; exact Ha]. split; [exact Ha|exact Hb]. }
  destruct HX as [[Hr1 ->]|HX]; [|exfalso; exact (Hn e HX Hne)].
  destruct (lays_columns _ _ _ _ _ Hr1 HL) as [Er Es]. cbn in Er, Es. rewrite Er, Es in HP.
  apply (placed_flush _ _ _ _ _ _ _ _ 0) in HP as (m & Hle & HF).
  - rewrite app_length in Hle. cbn in Hle. apply (flush_no_hole m); [lia|exact HF].
  - intros x Hx. apply Hm. rewrite Ees. apply in_app_iff in Hx as [Hx|[<-|[]]]; apply in_app_iff; [left; exact Hx|right; left; reflexivity].
  - lia.
  - split; [intros d []|intros i Hi; lia].
Qed.
