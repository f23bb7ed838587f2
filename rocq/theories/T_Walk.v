(** * C95: the walk over a tree *)
From Coq Require Import Sorted.
From Verif Require Import Base M_Xml M_Cals M_CalsParser M_FormexRead M_Walk S_Walk.
Open Scope string_scope.
Open Scope list_scope.
Open Scope Z_scope.

(** ** The places of the events *)

Definition push (i : nat) (kp : string * place) : string * place := (fst kp, i :: snd kp).
Section Places.
  Variables st en : bool.
  Variable m : xnode -> bool.
  Definition go_places (f : xnode -> list (string * place)) : nat -> list xnode -> list (string * place) :=
    fix go (i : nat) (l : list xnode) : list (string * place) :=
      match l with [] => [] | c :: l' => map (push i) (f c) ++ go (S i) l' end.
  Fixpoint places (n : xnode) : list (string * place) :=
    (if st && m n then [("start", [])] else []) ++
    match n with XElem _ _ _ children _ => go_places places 0 children | _ => [] end ++
    (if en && m n then [("end", [])] else []).

  Lemma places_eq n : places n = (if st && m n then [("start", [])] else []) ++ go_places places 0 (x_children n) ++ (if en && m n then [("end", [])] else []).
  Proof. destruct n; reflexivity. Qed.
  Lemma in_go f i l k p : In (k, p) (go_places f i l) <-> exists j q c, p = (i + j)%nat :: q /\ nth_error l j = Some c /\ In (k, q) (f c).
  Proof.
    revert i. induction l as [|c l IH]; intros i; cbn [go_places]; [split; [intros []|intros (j & q & c & _ & H & _); destruct j; discriminate]|].
    rewrite in_app_iff, IH. split.
    - intros [H|(j & q & d & -> & H1 & H2)].
      + apply in_map_iff in H as ([k' q] & [= <- <-] & H). exists 0%nat, q, c. rewrite Nat.add_0_r. auto.
      + exists (S j), q, d. rewrite Nat.add_succ_r. auto.
    - intros (j & q & d & -> & H1 & H2). destruct j as [|j]; cbn in H1.
      + injection H1 as ->. left. apply in_map_iff. exists (k, q). rewrite Nat.add_0_r. split; [reflexivity|exact H2].
      + right. exists j, q, d. rewrite Nat.add_succ_r. auto.
  Qed.
  Lemma in_places p : forall n k, In (k, p) (places n) <-> ((k = "start" /\ st = true) \/ (k = "end" /\ en = true)) /\ exists d, node_at n p = Some d /\ m d = true.
  Proof.
    induction p as [|i p IH]; intros n k; rewrite places_eq, !in_app_iff, in_go; cbn [node_at].
    - split.
      + intros [H|[(j & q & c & H & _)|H]]; [|discriminate H|].
        * destruct st, (m n) eqn:E; cbn in H; try tauto. destruct H as [[= <-]|[]]. split; [auto|exists n; auto].
        * destruct en, (m n) eqn:E; cbn in H; try tauto. destruct H as [[= <-]|[]]. split; [auto|exists n; auto].
      + intros [[[-> H]|[-> H]] (d & [= <-] & E)]; rewrite H, E; cbn; auto.
    - split.
      + intros [H|[(j & q & c & [= -> ->] & H1 & H2)|H]].
        * destruct (st && m n); [destruct H as [[=]|[]]|destruct H].
        * rewrite H1. apply IH, H2.
        * destruct (en && m n); [destruct H as [[=]|[]]|destruct H].
      + intros [Hk (d & H & E)]. destruct (nth_error (x_children n) i) as [c|] eqn:Ei; [|discriminate]. right. left. exists i, p, c.
        split; [reflexivity|]. split; [exact Ei|]. apply IH. split; [exact Hk|exists d; auto].
  Qed.

  (** ** Their order *)

  Lemma sooner_push i a b : sooner a b -> sooner (push i a) (push i b).
  Proof.
    intros [p|p j q k|p j q k|p j j' q r k k' H]; unfold push; cbn [fst snd]; [apply sooner_own|apply (sooner_above (i :: p))|apply (sooner_inside (i :: p))|apply (sooner_left (i :: p)); exact H].
  Qed.
  Lemma sorted_app (l g : list (string * place)) : StronglySorted sooner l -> StronglySorted sooner g -> (forall a b, In a l -> In b g -> sooner a b) -> StronglySorted sooner (l ++ g).
  Proof.
    intros Hl Hg H. induction Hl as [|a l Hl IH F]; [exact Hg|]. cbn [app]. constructor.
    - apply IH. intros x y Hx. apply H. right. exact Hx.
    - apply Forall_app. split; [exact F|]. apply Forall_forall. intros b Hb. apply H; [left; reflexivity|exact Hb].
  Qed.
  Lemma sorted_push i l : StronglySorted sooner l -> StronglySorted sooner (map (push i) l).
  Proof.
    induction 1 as [|a l H IH F]; [constructor|]. cbn [map]. constructor; [exact IH|]. rewrite Forall_forall in *. intros b Hb.
    apply in_map_iff in Hb as (c & <- & Hc). apply sooner_push, F, Hc.
  Qed.
  Lemma sorted_go l : Forall (fun c => StronglySorted sooner (places c)) l -> forall i, StronglySorted sooner (go_places places i l).
  Proof.
    induction 1 as [|c l H F IH]; intros i; cbn [go_places]; [constructor|]. apply sorted_app; [apply sorted_push, H|apply IH|].
    intros [k p] [k' q] Ha Hb. apply in_map_iff in Ha as ([k0 p0] & [= <- <-] & _). apply in_go in Hb as (j & q0 & c' & -> & _ & _).
    unfold push. cbn [fst snd]. apply (sooner_left []). lia.
  Qed.
  Lemma sorted_places n : StronglySorted sooner (places n).
  Proof.
    assert (G : forall l, StronglySorted sooner (go_places places 0 l) -> StronglySorted sooner ((if st && m n then [("start", [])] else []) ++ go_places places 0 l ++ (if en && m n then [("end", [])] else []))).
    { intros l Hl. assert (One : forall (b : bool) (x : string * place), StronglySorted sooner (if b then [x] else [])) by (intros [] x; repeat constructor).
      apply sorted_app; [apply One|apply sorted_app; [exact Hl|apply One|]|].
      - intros [k p] y Ha Hb. apply in_go in Ha as (j & q & c & -> & _). destruct (en && m n); [|destruct Hb]. destruct Hb as [<-|[]]. apply (sooner_inside []).
      - intros x [k p] Ha Hb. destruct (st && m n); [|destruct Ha]. destruct Ha as [<-|[]]. apply in_app_iff in Hb as [Hb|Hb].
        + apply in_go in Hb as (j & q & c & -> & _). apply (sooner_above []).
        + destruct (en && m n); [|destruct Hb]. destruct Hb as [[= <- <-]|[]]. apply sooner_own. }
    rewrite places_eq. revert G. induction n as [tag at0 text children tail IH|? ? ?|? ?] using xnode_ind'; intros G; apply G; cbn [x_children]; [|constructor..].
    apply sorted_go. clear G. induction IH as [|c l H F IH']; constructor; [|exact IH']. rewrite places_eq. apply H.
    assert (One : forall (b : bool) (x : string * place), StronglySorted sooner (if b then [x] else [])) by (intros [] x; repeat constructor).
    intros l0 Hl. apply sorted_app; [apply One|apply sorted_app; [exact Hl|apply One|]|].
    - intros [k p] y Ha Hb. apply in_go in Ha as (j & q & c0 & -> & _). destruct (en && m c); [|destruct Hb]. destruct Hb as [<-|[]]. apply (sooner_inside []).
    - intros x [k p] Ha Hb. destruct (st && m c); [|destruct Ha]. destruct Ha as [<-|[]]. apply in_app_iff in Hb as [Hb|Hb].
      + apply in_go in Hb as (j & q & c0 & -> & _). apply (sooner_above []).
      + destruct (en && m c); [|destruct Hb]. destruct Hb as [[= <- <-]|[]]. apply sooner_own.
  Qed.
End Places.

(** ** C95 *)

Lemma matching_in l n : matching l n = true <-> exists s, In s l /\ x_tag n = Some s.
Proof.
  unfold matching. destruct (x_tag n) as [t|]; [|split; [discriminate|intros (s & _ & H); discriminate]].
  unfold str_mem. rewrite existsb_exists. split; [intros (s & Hs & E); apply String.eqb_eq in E; subst; eauto|].
  intros (s & Hs & [= ->]). exists s. split; [exact Hs|apply String.eqb_refl].
Qed.
Lemma matcher_asked tag n : matcher tag n = true <-> asked tag n.
Proof.
  destruct tag as [|s|l]; cbn [matcher asked]; [tauto| |apply matching_in].
  destruct (String.eqb_spec s "*") as [->|Hs]; [tauto|]. rewrite matching_in. split; [intros (t & [<-|[]] & E); auto|]. intros [E|E]; [contradiction|]. exists s. cbn. auto.
Qed.
Lemma mem_in s l : str_mem s l = true <-> In s l.
Proof. unfold str_mem. rewrite existsb_exists. split; [intros (x & Hx & E); apply String.eqb_eq in E; subst; exact Hx|]. intros H. exists s. split; [exact H|apply String.eqb_refl]. Qed.
Lemma places_events events tag n : all_events events (asked tag) n (places (str_mem "start" events) (str_mem "end" events) (matcher tag) n).
Proof.
  split; [apply sorted_places|]. intros k p. rewrite in_places, !mem_in. split.
  - intros [[[-> H]|[-> H]] (d & E & Hd)]; (split; [exact H|]); (split; [auto|]); exists d; (split; [exact E|apply matcher_asked, Hd]).
  - intros (H & Hk & d & E & Hd). split; [destruct Hk as [-> | ->]; auto|]. exists d. split; [exact E|apply matcher_asked, Hd].
Qed.
Lemma impl_places events m n : Forall2 (fun ev kp => fst ev = fst kp /\ node_at n (snd kp) = Some (snd ev))
  (iterwalk_impl events m n) (places (str_mem "start" events) (str_mem "end" events) m n).
Proof.
  induction n as [tag at0 text children tail IH|? ? ?|? ?] using xnode_ind'.
  2,3: cbn [iterwalk_impl places]; apply Forall2_app; [destruct (_ && _); repeat constructor|apply Forall2_app; [constructor|destruct (_ && _); repeat constructor]].
  cbn [iterwalk_impl places]. set (n := XElem tag at0 text children tail). apply Forall2_app; [destruct (_ && _); repeat constructor|]. apply Forall2_app; [|destruct (_ && _); repeat constructor].
  assert (G : forall l i, Forall (fun c => Forall2 (fun ev kp => fst ev = fst kp /\ node_at c (snd kp) = Some (snd ev)) (iterwalk_impl events m c) (places (str_mem "start" events) (str_mem "end" events) m c)) l ->
     (forall j c, nth_error l j = Some c -> nth_error children (i + j) = Some c) ->
     Forall2 (fun ev kp => fst ev = fst kp /\ node_at n (snd kp) = Some (snd ev)) (flat_map (iterwalk_impl events m) l) (go_places (places (str_mem "start" events) (str_mem "end" events) m) i l)).
  { induction l as [|c l IHl]; intros i HF HN; cbn [flat_map go_places]; [constructor|]. inversion HF as [|c' l' Hc Hl]; subst. apply Forall2_app.
    - pose proof (HN 0%nat c eq_refl) as H0. rewrite Nat.add_0_r in H0. clear - Hc H0. induction Hc as [|ev kp evs kps [H1 H2] F IH]; [constructor|]. cbn [map]. constructor; [|exact IH].
      unfold push. cbn [fst snd]. split; [exact H1|]. cbn [node_at]. subst n. cbn [x_children]. rewrite H0. exact H2.
    - apply IHl; [exact Hl|]. intros j d Hj. rewrite Nat.add_succ_comm. apply HN. exact Hj. }
  apply G; [exact IH|]. intros j c Hj. exact Hj.
Qed.

(** The Python walk gives one event for each node which is asked for and for each kind, in document order. *)
Theorem C95_events : forall n kinds tag, walks kinds (asked tag) n (iterwalk n kinds tag).
Proof.
  intros n kinds tag. exists (places (str_mem "start" kinds) (str_mem "end" kinds) (matcher tag) n). split; [apply places_events|apply impl_places].
Qed.

(** There is only one such list. *)
Fixpoint earlier (a b : place) (k k' : string) : Prop :=
  match a, b with
  | [], [] => k = "start" /\ k' = "end"
  | [], _ :: _ => k = "start"
  | _ :: _, [] => k' = "end"
  | i :: a', j :: b' => (i < j)%nat \/ (i = j /\ earlier a' b' k k')
  end.
Lemma sooner_earlier a b : sooner a b -> earlier (snd a) (snd b) (fst a) (fst b).
Proof.
  intros [p|p i q k|p i q k|p i j q r k k' H]; cbn [fst snd]; induction p as [|x p IH]; cbn [app earlier]; auto.
Qed.
Lemma earlier_not a : forall b k k', earlier a b k k' -> earlier b a k' k -> False.
Proof.
  induction a as [|i a IH]; intros [|j b] k k'; cbn [earlier].
  - intros [-> ->] [E _]. discriminate E.
  - intros -> E. discriminate E.
  - intros -> E. discriminate E.
  - intros [H|[-> H]] [G|[E G]]; [lia|lia|lia|]. exact (IH _ _ _ H G).
Qed.
Lemma sooner_not a b : sooner a b -> ~ sooner b a.
Proof. intros H G. apply sooner_earlier in H, G. exact (earlier_not _ _ _ _ H G). Qed.
Lemma sorted_unique l : forall g, StronglySorted sooner l -> StronglySorted sooner g -> (forall x, In x l <-> In x g) -> l = g.
Proof.
  induction l as [|a l IH]; intros g Hl Hg H.
  - destruct g as [|b g]; [reflexivity|]. destruct (proj2 (H b) (or_introl eq_refl)).
  - destruct g as [|b g]; [destruct (proj1 (H a) (or_introl eq_refl))|].
    inversion Hl as [|a' l' Sl Fl]; subst. inversion Hg as [|b' g' Sg Fg]; subst. rewrite Forall_forall in Fl, Fg.
    assert (E : a = b).
    { destruct (proj1 (H a) (or_introl eq_refl)) as [E|Ha]; [auto|]. destruct (proj2 (H b) (or_introl eq_refl)) as [E|Hb]; [auto|].
      destruct (sooner_not _ _ (Fl b Hb) (Fg a Ha)). }
    subst b. f_equal. apply IH; [exact Sl|exact Sg|]. intros x. split; intros Hx.
    + destruct (proj1 (H x) (or_intror Hx)) as [<-|G]; [|exact G]. destruct (sooner_not _ _ (Fl a Hx) (Fl a Hx)).
    + destruct (proj2 (H x) (or_intror Hx)) as [<-|G]; [|exact G]. destruct (sooner_not _ _ (Fg a Hx) (Fg a Hx)).
Qed.
Theorem C95_unique : forall kinds keep n l l', walks kinds keep n l -> walks kinds keep n l' -> l = l'.
Proof.
  intros kinds keep n l l' (ps & [S1 M1] & F1) (ps' & [S2 M2] & F2).
  assert (E : ps = ps') by (apply sorted_unique; [exact S1|exact S2|]; intros [k p]; rewrite M1, M2; tauto). subst ps'.
  clear - F1 F2. revert l' F2. induction F1 as [|[k x] kp l ps [A B] F IH]; intros l' F2; inversion F2 as [|[k' x'] kp' g ps' [C D] G]; subst; [reflexivity|].
  cbn [fst snd] in *. rewrite B in D. injection D as ->. f_equal; [congruence|apply IH, G].
Qed.

(** With names the events are those of elements.  Without names comments and processing instructions have events
    too, unlike the walk of lxml, whose "start" and "end" events are those of elements only. *)
Theorem C95_named : forall n kinds l k x, In (k, x) (iterwalk n kinds (TagNames l)) -> exists t, x_tag x = Some t /\ In t l.
Proof.
  intros n kinds l k x H. destruct (C95_events n kinds (TagNames l)) as (ps & [_ M] & F).
  assert (G : exists kp, In kp ps /\ fst kp = k /\ node_at n (snd kp) = Some x).
  { clear M. induction F as [|ev kp evs ps [A B] F IH]; [destruct H|]. destruct H as [->|H]; [exists kp; split; [left; reflexivity|]; auto|].
    destruct (IH H) as (kp' & H1 & H2). exists kp'. split; [right; exact H1|exact H2]. }
  destruct G as ([k' p] & Hin & _ & E). apply M in Hin as (_ & _ & d & E' & s & Hs & Ht). cbn [snd] in E. rewrite E in E'. injection E' as ->. eauto.
Qed.
Theorem C95_elements_refuted : exists n kinds k x, In (k, x) (iterwalk n kinds TagNone) /\ x_tag x = None.
Proof. exists (XElem "a" [] None [XComment "note" None] None), ["end"], "end", (XComment "note" None). split; [left; reflexivity|reflexivity]. Qed.

(** ** The parsers *)

(** The events of the CALS and Word parsers: those of the walk, each with the parent of its element *)
Theorem C95_parents : forall tags parent n, exists ps, all_events ["start"; "end"] (asked (TagNames tags)) n ps /\
    Forall2 (fun ev kp => ev_start ev = String.eqb (fst kp) "start" /\ node_at n (snd kp) = Some (ev_elem ev) /\ ev_parent ev = parent_at parent n (snd kp)) (walk tags parent n) ps.
Proof.
  intros tags parent n. exists (places true true (matching tags) n). split; [exact (places_events ["start"; "end"] (TagNames tags) n)|].
  revert parent. induction n as [tag at0 text children tail IH|? ? ?|? ?] using xnode_ind'; intros parent; [|cbn; constructor..].
  cbn [walk places andb]. set (n := XElem tag at0 text children tail).
  assert (G : Forall2 (fun ev kp => ev_start ev = String.eqb (fst kp) "start" /\ node_at n (snd kp) = Some (ev_elem ev) /\ ev_parent ev = parent_at parent n (snd kp))
     (flat_map (walk tags (Some n)) children) (go_places (places true true (matching tags)) 0 children)).
  { assert (X : forall l i, Forall (fun c => forall parent, Forall2 (fun ev kp => ev_start ev = String.eqb (fst kp) "start" /\ node_at c (snd kp) = Some (ev_elem ev) /\ ev_parent ev = parent_at parent c (snd kp)) (walk tags parent c) (places true true (matching tags) c)) l ->
       (forall j c, nth_error l j = Some c -> nth_error children (i + j) = Some c) ->
       Forall2 (fun ev kp => ev_start ev = String.eqb (fst kp) "start" /\ node_at n (snd kp) = Some (ev_elem ev) /\ ev_parent ev = parent_at parent n (snd kp))
         (flat_map (walk tags (Some n)) l) (go_places (places true true (matching tags)) i l)).
    { induction l as [|c l IHl]; intros i HF HN; cbn [flat_map go_places]; [constructor|]. inversion HF as [|c' l' Hc Hl]; subst. apply Forall2_app.
      - pose proof (HN 0%nat c eq_refl) as H0. rewrite Nat.add_0_r in H0. specialize (Hc (Some n)). clear - Hc H0. induction Hc as [|ev kp evs kps (H1 & H2 & H3) F IH]; [constructor|]. cbn [map]. constructor; [|exact IH].
        unfold push. cbn [fst snd]. split; [exact H1|]. split; [cbn [node_at]; subst n; cbn [x_children]; rewrite H0; exact H2|].
        rewrite H3. destruct (snd kp) as [|j p]; [reflexivity|]. unfold parent_at. cbn [removelast node_at]. subst n. cbn [x_children]. rewrite H0. reflexivity.
      - apply IHl; [exact Hl|]. intros j d Hj. rewrite Nat.add_succ_comm. apply HN. exact Hj. }
    apply X; [exact IH|]. intros j c Hj. exact Hj. }
  destruct (matching tags n); [|rewrite app_nil_r; exact G]. cbn [app]. constructor; [auto|]. apply Forall2_app; [exact G|]. constructor; [auto|constructor].
Qed.
Theorem C95_parsers : forall tags parent n,
    map (fun ev => (if ev_start ev then "start" else "end", ev_elem ev)) (walk tags parent n) = iterwalk n ["start"; "end"] (TagNames tags).
Proof.
  intros tags parent n. apply (C95_unique ["start"; "end"] (asked (TagNames tags)) n); [|apply C95_events].
  destruct (C95_parents tags parent n) as (ps & HA & F). exists ps. split; [exact HA|]. destruct HA as [_ M].
  assert (K : forall kp, In kp ps -> fst kp = "start" \/ fst kp = "end") by (intros [k p] H; apply M in H; cbn; tauto). clear M.
  induction F as [|ev kp evs ps (H1 & H2 & _) F IH]; [constructor|]. cbn [map]. constructor; [|apply IH; intros x Hx; apply K; right; exact Hx].
  cbn [fst snd]. split; [|exact H2]. rewrite H1. destruct (K kp (or_introl eq_refl)) as [-> | ->]; reflexivity.
Qed.

(** The events of the Formex parser, each with the parent of its element, the number of BLK above it and the nodes
    before it in its parent *)
Definition in_context (o : pfmx_opts) (parent : option xnode) (blks : Z) (before : list xnode) (n : xnode) (ev : fevent) (kp : string * place) : Prop :=
  fe_start ev = String.eqb (fst kp) "start" /\ node_at n (snd kp) = Some (fe_elem ev) /\ fe_parent ev = parent_at parent n (snd kp) /\
  fe_blks ev = blks + Z.of_nat (List.length (filter (fun d => x_has_tag d (fmx o "BLK")) (nodes_above n (snd kp)))) /\
  fe_before ev = before_at before n (snd kp).
Lemma context_push o parent blks before n i c ev kp : nth_error (x_children n) i = Some c ->
  in_context o (Some n) (if x_has_tag n (fmx o "BLK") then blks + 1 else blks) (firstn i (x_children n)) c ev kp -> in_context o parent blks before n ev (push i kp).
Proof.
  intros Hi (H1 & H2 & H3 & H4 & H5). unfold push. destruct kp as [k p]. cbn [fst snd] in *. split; [exact H1|]. cbn [snd node_at]. split; [rewrite Hi; exact H2|]. split; [|split].
  - rewrite H3. destruct p as [|j p]; [reflexivity|]. unfold parent_at. cbn [removelast node_at]. rewrite Hi. reflexivity.
  - rewrite H4. cbn [snd nodes_above filter]. rewrite Hi. destruct (x_has_tag n (fmx o "BLK")); cbn [List.length]; lia.
  - rewrite H5. destruct p as [|j p]; [reflexivity|]. unfold before_at. cbn [removelast node_at snd]. rewrite Hi. reflexivity.
Qed.
Theorem C95_context : forall o parent blks before n, exists ps, all_events ["start"; "end"] (asked (TagNames (fmx_elements o))) n ps /\
    Forall2 (in_context o parent blks before n) (fwalk o parent blks before n) ps.
Proof.
  intros o parent blks before n. exists (places true true (matching (fmx_elements o)) n). split; [exact (places_events ["start"; "end"] (TagNames (fmx_elements o)) n)|].
  revert parent blks before. induction n as [tag at0 text children tail IH|? ? ?|? ?] using xnode_ind'; intros parent blks before; [|cbn; constructor..].
  cbn [fwalk places andb]. set (n := XElem tag at0 text children tail).
  match goal with |- context [(fix go (seen l : list xnode) {struct l} : list fevent := _) [] children] => set (go := fix go (seen l : list xnode) {struct l} : list fevent := match l with [] => [] | c :: l' => fwalk o (Some n) (if x_has_tag n (fmx o "BLK") then blks + 1 else blks) seen c ++ go (seen ++ [c]) l' end) end.
  assert (G : Forall2 (in_context o parent blks before n) (go [] children) (go_places (places true true (matching (fmx_elements o))) 0 children)).
  { assert (X : forall l seen, Forall (fun c => forall parent blks before, Forall2 (in_context o parent blks before c) (fwalk o parent blks before c) (places true true (matching (fmx_elements o)) c)) l ->
       seen ++ l = children ->
       Forall2 (in_context o parent blks before n) (go seen l) (go_places (places true true (matching (fmx_elements o))) (List.length seen) l)).
    { induction l as [|c l IHl]; intros seen HF HS; cbn [go go_places]; [constructor|]. inversion HF as [|c' l' Hc Hl]; subst c' l'. apply Forall2_app.
      - specialize (Hc (Some n) (if x_has_tag n (fmx o "BLK") then blks + 1 else blks) seen).
        assert (Hi : nth_error (x_children n) (List.length seen) = Some c) by (subst n; cbn [x_children]; rewrite <- HS, nth_error_app2, Nat.sub_diag by lia; reflexivity).
        assert (Hf : seen = firstn (List.length seen) (x_children n)) by (subst n; cbn [x_children]; rewrite <- HS, firstn_app, Nat.sub_diag, firstn_all, app_nil_r; reflexivity).
        assert (Hc' : Forall2 (in_context o (Some n) (if x_has_tag n (fmx o "BLK") then blks + 1 else blks) (firstn (List.length seen) (x_children n)) c)
           (fwalk o (Some n) (if x_has_tag n (fmx o "BLK") then blks + 1 else blks) seen c) (places true true (matching (fmx_elements o)) c)) by (rewrite <- Hf; exact Hc).
        clear - Hc' Hi. induction Hc' as [|ev kp evs kps H F IH]; [constructor|]. cbn [map]. constructor; [|exact IH]. exact (context_push _ _ _ _ _ _ _ _ _ Hi H).
      - specialize (IHl (seen ++ [c]) Hl). rewrite app_length in IHl. cbn [List.length] in IHl. rewrite Nat.add_1_r in IHl. apply IHl. rewrite <- app_assoc. exact HS. }
    apply (X children []); [exact IH|reflexivity]. }
  assert (R : forall k, In k ["start"; "end"] -> in_context o parent blks before n (MkFEvent (String.eqb k "start") n parent blks before) (k, [])).
  { intros k _. split; [reflexivity|]. split; [reflexivity|]. split; [reflexivity|]. split; [cbn; lia|reflexivity]. }
  destruct (matching (fmx_elements o) n); [|rewrite app_nil_r; exact G]. cbn [app]. constructor; [apply (R "start"); cbn; tauto|].
  apply Forall2_app; [exact G|]. constructor; [apply (R "end"); cbn; tauto|constructor].
Qed.

(** An element with two rows, a comment and a nested row *)
Example C95_ex : let cell := XElem "c" [] None [] None in let inner := XElem "r" [] None [] None in
  let first := XElem "r" [] None [cell; inner] None in let root := XElem "t" [] None [first; XComment "note" None; inner] None in
  iterwalk root ["start"; "end"] (TagNames ["r"; "t"]) =
    [("start", root); ("start", first); ("start", inner); ("end", inner); ("end", first); ("start", inner); ("end", inner); ("end", root)] /\
  iterwalk root ["end"] (TagName "c") = [("end", cell)] /\ node_at root [0; 1]%nat = Some inner /\ node_at root [2]%nat = Some inner.
Proof. vm_compute. auto. Qed.

Print Assumptions C95_events.
Print Assumptions C95_unique.
Print Assumptions C95_named.
Print Assumptions C95_elements_refuted.
Print Assumptions C95_parents.
Print Assumptions C95_parsers.
Print Assumptions C95_context.
