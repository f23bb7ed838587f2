(** * Proofs about the view objects *)
From Verif Require Import Base M_Geometry M_Xml M_Cell M_Grid M_Table M_Views.
From Verif Require Import S_Geometry S_Cell S_Grid S_Table S_Views P_Geometry P_Cell P_Grid P_GridFacts P_Table P_TableFacts P_TableMore.

(** ** Shelves *)

Definition sh (s : shelf) (vs : list view) : Prop :=
  Forall2 (fun r v => nth_error (fst s) r = Some v) (snd s) vs /\ NoDup (snd s).

Definition old (s s' : shelf) : Prop :=
  forall r v, nth_error (fst s) r = Some v ->
  exists v', nth_error (fst s') r = Some v' /\ same_attributes v v' /\
             (~ In r (snd s) -> v' = v /\ ~ In r (snd s')).

Definition grows (s s' : shelf) : Prop :=
  old s s' /\ exists more, snd s' = snd s ++ more /\ Forall (fun r => (List.length (fst s) <= r)%nat) more.

Definition cut (n : nat) (s s' : shelf) : Prop :=
  (exists more, snd s' = firstn n (snd s) ++ more /\ Forall (fun r => (List.length (fst s) <= r)%nat) more) /\
  (forall r, In r (snd s) -> ~ In r (snd s') -> nth_error (fst s') r = nth_error (fst s) r).

Lemma same_attributes_refl v : same_attributes v v.
Proof. repeat split. Qed.
Lemma same_attributes_trans a b c : same_attributes a b -> same_attributes b c -> same_attributes a c.
Proof. intros (A1 & A2 & A3) (B1 & B2 & B3). repeat split; congruence. Qed.

Lemma old_refl s : old s s.
Proof. intros r v H. exists v. split; [exact H|]. split; [apply same_attributes_refl|auto]. Qed.
Lemma old_trans a b c : old a b -> old b c -> old a c.
Proof.
  intros H1 H2 r v H. destruct (H1 r v H) as (v1 & E1 & A1 & N1). destruct (H2 r v1 E1) as (v2 & E2 & A2 & N2).
  exists v2. split; [exact E2|]. split; [eapply same_attributes_trans; eassumption|].
  intros Hn. destruct (N1 Hn) as [-> Hn1]. apply N2, Hn1.
Qed.
Lemma old_length s s' : old s s' -> (List.length (fst s) <= List.length (fst s'))%nat.
Proof.
  intros H. destruct (fst s) as [|a l] eqn:E; [cbn; lia|]. 
  destruct (nth_error (fst s) (List.length l)) as [v|] eqn:Ev.
  - destruct (H _ _ Ev) as (v' & E' & _). assert (Hl : (List.length l < List.length (fst s'))%nat) by (apply nth_error_Some; congruence).
    cbn. lia.
  - apply nth_error_None in Ev. rewrite E in Ev. cbn in Ev. lia.
Qed.
Lemma grows_refl s : grows s s.
Proof. split; [apply old_refl|]. exists []. rewrite app_nil_r. auto. Qed.
Lemma grows_trans a b c : grows a b -> grows b c -> grows a c.
Proof.
  intros (O1 & m1 & E1 & F1) (O2 & m2 & E2 & F2). split; [eapply old_trans; eassumption|].
  exists (m1 ++ m2). rewrite E2, E1, app_assoc. split; [reflexivity|]. apply Forall_app. split; [exact F1|].
  eapply Forall_impl; [|exact F2]. intros r Hr. pose proof (old_length _ _ O1). cbn in Hr. lia.
Qed.
Lemma grows_old s s' : grows s s' -> old s s'.
Proof. intros H. apply H. Qed.

Lemma sh_bound s vs r : sh s vs -> In r (snd s) -> (r < List.length (fst s))%nat.
Proof.
  intros [F _] H. induction F as [|r' v l l' E F IH]; [destruct H|].
  destruct H as [->|H]; [apply nth_error_Some; congruence|auto].
Qed.

Lemma F2_firstn {A B} (R : A -> B -> Prop) l m n : Forall2 R l m -> Forall2 R (firstn n l) (firstn n m).
Proof. intros F. revert n. induction F; intros [|n]; cbn; constructor; auto. Qed.
Lemma F2_len {A B} (R : A -> B -> Prop) l m : Forall2 R l m -> List.length l = List.length m.
Proof. induction 1; cbn; congruence. Qed.
Lemma F2_app {A B} (R : A -> B -> Prop) l m l' m' : Forall2 R l m -> Forall2 R l' m' -> Forall2 R (l ++ l') (m ++ m').
Proof. intros F G. induction F; cbn; [exact G|constructor; auto]. Qed.
Lemma F2_impl {A B} (R R' : A -> B -> Prop) l m : (forall a b, R a b -> R' a b) -> Forall2 R l m -> Forall2 R' l m.
Proof. intros H F. induction F; constructor; auto. Qed.
Lemma nodup_app {A} (l m : list A) : NoDup l -> NoDup m -> (forall a, In a l -> In a m -> False) -> NoDup (l ++ m).
Proof.
  intros Hl Hm. induction Hl as [|a l Hn Hl IH]; intros H; cbn; [exact Hm|]. constructor.
  - intros Hi. apply in_app_iff in Hi as [Hi|Hi]; [tauto|]. apply (H a); [left; reflexivity|exact Hi].
  - apply IH. intros b Hb. apply H. right. exact Hb.
Qed.
Lemma firstn_In {A} (l : list A) n a : In a (firstn n l) -> In a l.
Proof. revert n. induction l as [|b l IH]; intros [|n] H; cbn in *; try tauto. destruct H as [->|H]; [auto|right; eapply IH, H]. Qed.
Lemma firstn_NoDup {A} (l : list A) n : NoDup l -> NoDup (firstn n l).
Proof.
  revert n. induction l as [|b l IH]; intros [|n] H; cbn; [constructor..|].
  inversion H; subst. constructor; [|auto]. intros Hi. apply firstn_In in Hi. tauto.
Qed.

Lemma F2_seq (heap fresh : list view) :
  Forall2 (fun r v => nth_error (heap ++ fresh) r = Some v) (seq (List.length heap) (List.length fresh)) fresh.
Proof.
  revert heap. induction fresh as [|v fresh IH]; intros heap; cbn [List.length seq]; [constructor|].
  constructor.
  - rewrite nth_error_app2 by lia. rewrite Nat.sub_diag. reflexivity.
  - specialize (IH (heap ++ [v])). rewrite app_length in IH. cbn in IH. rewrite Nat.add_1_r in IH.
    rewrite <- app_assoc in IH. exact IH.
Qed.

Lemma fit_sh n tr s vs : sh s vs -> sh (o_fit n tr s) (fit_to_size n tr vs).
Proof.
  intros HS. pose proof (fun r => sh_bound s vs r HS) as HB. destruct HS as [F ND]. destruct s as [heap refs]. cbn [fst snd] in *.
  unfold o_fit, fit_to_size.
  set (refs' := if tr then firstn (Z.to_nat n) refs else refs).
  set (vs' := if tr then firstn (Z.to_nat n) vs else vs).
  assert (F' : Forall2 (fun r v => nth_error heap r = Some v) refs' vs').
  { subst refs' vs'. destruct tr; [apply F2_firstn, F|exact F]. }
  assert (ND' : NoDup refs') by (subst refs'; destruct tr; [apply firstn_NoDup, ND|exact ND]).
  assert (HB' : forall r, In r refs' -> (r < List.length heap)%nat).
  { intros r Hr. apply HB. subst refs'. destruct tr; [eapply firstn_In, Hr|exact Hr]. }
  rewrite (F2_len _ _ _ F').
  split; cbn [fst snd].
  - apply F2_app; [|apply F2_seq].
    eapply F2_impl; [|exact F']. cbn. intros r v E. rewrite nth_error_app1; [exact E|]. apply nth_error_Some. congruence.
  - apply nodup_app; [exact ND'|apply seq_NoDup|]. intros r Hr Hs. apply in_seq in Hs. apply HB' in Hr. lia.
Qed.

Lemma fit_old n tr s vs : sh s vs -> old s (o_fit n tr s).
Proof.
  intros HS r v E. destruct s as [heap refs]. cbn [fst snd] in *. unfold o_fit. cbn [fst snd].
  exists v. assert (Hr : (r < List.length heap)%nat) by (apply nth_error_Some; congruence).
  rewrite nth_error_app1 by exact Hr. split; [exact E|]. split; [apply same_attributes_refl|].
  intros Hn. split; [reflexivity|]. intros H. apply in_app_iff in H as [H|H].
  - apply Hn. destruct tr; [eapply firstn_In, H|exact H].
  - apply in_seq in H. lia.
Qed.

Lemma fit_grows n s vs : sh s vs -> grows s (o_fit n false s).
Proof.
  intros HS. split; [eapply fit_old, HS|]. destruct s as [heap refs]. cbn. eexists. split; [reflexivity|].
  apply Forall_forall. intros r Hr. apply in_seq in Hr. cbn. lia.
Qed.

Lemma F2_upd_nth (f : view -> view) heap refs vs i r :
  Forall2 (fun r v => nth_error heap r = Some v) refs vs -> NoDup refs -> nth_error refs i = Some r ->
  Forall2 (fun r v => nth_error (upd_nth heap r f) r = Some v) [r] (match nth_error vs i with Some v => [f v] | None => [] end) /\
  Forall2 (fun r' v => nth_error (upd_nth heap r f) r' = Some v) refs (upd_nth vs i f).
Proof.
  intros F. revert i. induction F as [|r' v refs vs E F IH]; intros [|i] ND Ei; cbn in Ei; try discriminate.
  - injection Ei as ->. inversion ND as [|? ? Hn ND']; subst. cbn.
    assert (Eu : nth_error (upd_nth heap r f) r = Some (f v)) by (rewrite nth_error_upd_nth, Nat.eqb_refl, E; reflexivity).
    split; [constructor; [exact Eu|constructor]|]. constructor; [exact Eu|].
    clear IH ND. induction F as [|r2 v2 refs vs E2 F IH]; constructor.
    + rewrite nth_error_upd_nth. replace (Nat.eqb r2 r) with false; [exact E2|].
      symmetry. apply Nat.eqb_neq. intros ->. apply Hn. left. reflexivity.
    + inversion ND'; subst. apply IH; [|assumption]. intros H. apply Hn. right. exact H.
  - inversion ND as [|? ? Hn ND']; subst. destruct (IH i ND' Ei) as [H1 H2]. cbn. split; [exact H1|].
    constructor; [|exact H2]. rewrite nth_error_upd_nth. replace (Nat.eqb r' r) with false; [exact E|].
    symmetry. apply Nat.eqb_neq. intros ->. apply Hn. eapply nth_error_In, Ei.
Qed.

Lemma upd_sh f heap refs vs i r :
  sh (heap, refs) vs -> nth_error refs i = Some r -> sh (upd_nth heap r f, refs) (upd_nth vs i f).
Proof. intros [F ND] E. split; [eapply F2_upd_nth; eassumption|exact ND]. Qed.

Lemma upd_old f heap refs r :
  (forall v, same_attributes v (f v)) -> In r refs -> old (heap, refs) (upd_nth heap r f, refs).
Proof.
  intros Hf Hr r' v E. cbn [fst snd] in *. rewrite nth_error_upd_nth, E. destruct (Nat.eqb r' r) eqn:Er.
  - apply Nat.eqb_eq in Er as ->. exists (f v). split; [reflexivity|]. split; [apply Hf|tauto].
  - exists v. split; [reflexivity|]. split; [apply same_attributes_refl|auto].
Qed.

(** Two results which agree *)
Definition agree {A B} (Q : A -> B -> Prop) (x : result A) (y : result B) : Prop :=
  match x, y with Ok a, Ok b => Q a b | Err e, Err e' => e = e' | _, _ => False end.

Lemma py_nth_agree s vs p :
  sh s vs -> agree (fun r v => nth_error (fst s) r = Some v /\ In r (snd s) /\
                    forall f, py_upd vs p f = Ok (upd_nth vs (match py_index vs p with Some i => i | None => O end) f) /\
                      sh (upd_nth (fst s) r f, snd s) (upd_nth vs (match py_index vs p with Some i => i | None => O end) f))
                (py_nth (snd s) p) (py_nth vs p).
Proof.
  intros HS. destruct s as [heap refs]. cbn [fst snd] in *. pose proof HS as HS'. destruct HS as [F ND]. cbn [fst snd] in *.
  pose proof (F2_len _ _ _ F) as L. unfold py_upd, py_nth.
  assert (Ei : py_index refs p = py_index vs p) by (unfold py_index; rewrite L; reflexivity).
  rewrite Ei. destruct (py_index vs p) as [i|] eqn:E; [|reflexivity].
  destruct (nth_error refs i) as [r|] eqn:Er.
  - destruct (nth_error vs i) as [v|] eqn:Ev.
    + cbn. split; [|split; [eapply nth_error_In, Er|]].
      * clear - F Er Ev. revert i Er Ev. induction F as [|r' v' l m E F IH]; intros [|i] Er Ev; cbn in *; try discriminate.
        -- congruence.
        -- eapply IH; eassumption.
      * intros f. split; [reflexivity|]. eapply upd_sh; eassumption.
    + apply nth_error_None in Ev. assert (i < List.length refs)%nat by (apply nth_error_Some; congruence). lia.
  - destruct (nth_error vs i) as [v|] eqn:Ev; [|reflexivity].
    apply nth_error_None in Er. assert (i < List.length vs)%nat by (apply nth_error_Some; congruence). lia.
Qed.

Lemma view_adopt_attributes ax c v : same_attributes v (view_adopt ax c v).
Proof. repeat split. Qed.

Lemma adopt_at_agree ax c ps s vs :
  sh s vs -> agree (fun s' vs' => sh s' vs' /\ old s s' /\ snd s' = snd s) (o_adopt_at ax c ps s) (adopt_at ax c ps vs).
Proof.
  revert s vs. induction ps as [|p ps IH]; intros s vs HS; cbn [o_adopt_at adopt_at].
  - cbn. split; [exact HS|]. split; [apply old_refl|reflexivity].
  - pose proof (py_nth_agree s vs (p - 1) HS) as H.
    destruct (py_nth (snd s) (p - 1)) as [r|e] eqn:E1, (py_nth vs (p - 1)) as [v|e'] eqn:E2; cbn in H; try contradiction; cbn [rbind].
    + destruct H as (Ev & Hr & Hf). destruct (Hf (view_adopt ax c)) as [Eu HS1]. rewrite Eu. cbn [rbind].
      specialize (IH _ _ HS1).
      destruct (o_adopt_at _ _ _ _) as [s'|e], (adopt_at _ _ _ _) as [vs'|e']; cbn in IH |- *; try contradiction; [|exact IH].
      destruct IH as (A & B & C). split; [exact A|]. split; [|exact C].
      eapply old_trans; [|exact B]. destruct s as [heap refs]. apply upd_old; [apply view_adopt_attributes|exact Hr].
    + subst e'. unfold py_upd. unfold py_nth in E2. destruct (py_index vs (p - 1)) as [i|] eqn:Ei.
      * destruct (nth_error vs i) eqn:Ev; [discriminate|]. exfalso.
        unfold py_index in Ei. apply nth_error_None in Ev.
        destruct (_ && _) eqn:C1 in Ei; [injection Ei as <-; lia|].
        destruct (_ && _) eqn:C2 in Ei; [injection Ei as <-; lia|discriminate].
      * cbn. congruence.
Qed.

Lemma adopt_agree ax c s vs :
  sh s vs -> agree (fun s' vs' => sh s' vs' /\ grows s s') (o_adopt ax c s) (vl_adopt ax c vs).
Proof.
  intros HS. unfold o_adopt, vl_adopt.
  pose proof (fit_sh (ax_hi ax (c_box c)) false s vs HS) as H1.
  pose proof (fit_grows (ax_hi ax (c_box c)) s vs HS) as G1.
  pose proof (adopt_at_agree ax c (zrange (ax_lo ax (c_box c)) (ax_hi ax (c_box c) + 1)) _ _ H1) as H.
  destruct (o_adopt_at _ _ _ _) as [s'|e], (adopt_at _ _ _ _) as [vs'|e']; cbn in H |- *; try contradiction; [|exact H].
  destruct H as (A & B & C). split; [exact A|]. eapply grows_trans; [exact G1|].
  split; [exact B|]. exists []. rewrite app_nil_r. auto.
Qed.

Lemma adopt_all_agree ax cells s vs :
  sh s vs -> agree (fun s' vs' => sh s' vs' /\ grows s s') (o_adopt_all ax cells s) (vl_adopt_all ax cells vs).
Proof.
  revert s vs. induction cells as [|c cells IH]; intros s vs HS; cbn [o_adopt_all vl_adopt_all].
  - split; [exact HS|apply grows_refl].
  - pose proof (adopt_agree ax c s vs HS) as H.
    destruct (o_adopt _ _ _) as [s1|e], (vl_adopt _ _ _) as [vs1|e']; cbn in H |- *; try contradiction; [|exact H].
    destruct H as [HS1 G1]. specialize (IH _ _ HS1).
    destruct (o_adopt_all _ _ _) as [s2|e], (vl_adopt_all _ _ _) as [vs2|e']; cbn in IH |- *; try contradiction; [|exact IH].
    destruct IH as [HS2 G2]. split; [exact HS2|]. eapply grows_trans; eassumption.
Qed.

Lemma reset_heap heap refs r :
  NoDup refs ->
  nth_error (fold_left (fun heap r => upd_nth heap r view_reset) refs heap) r =
  if in_dec Nat.eq_dec r refs then option_map view_reset (nth_error heap r) else nth_error heap r.
Proof.
  intros ND. revert heap. induction ND as [|a refs Hn ND IH]; intros heap; [reflexivity|].
  cbn [fold_left]. rewrite IH, nth_error_upd_nth.
  destruct (in_dec Nat.eq_dec r refs) as [i|n], (in_dec Nat.eq_dec r (a :: refs)) as [i'|n'].
  - replace (Nat.eqb r a) with false; [reflexivity|]. symmetry. apply Nat.eqb_neq. intros ->. tauto.
  - exfalso. apply n'. right. exact i.
  - destruct i' as [->|i']; [|tauto]. rewrite Nat.eqb_refl. reflexivity.
  - replace (Nat.eqb r a) with false; [reflexivity|]. symmetry. apply Nat.eqb_neq. intros ->. apply n'. left. reflexivity.
Qed.

Lemma reset_sh s vs : sh s vs -> sh (o_reset s) (map view_reset vs).
Proof.
  intros [F ND]. split; [|exact ND]. unfold o_reset. cbn [fst snd].
  assert (H : forall l m, (forall r, In r l -> In r (snd s)) -> Forall2 (fun r v => nth_error (fst s) r = Some v) l m ->
     Forall2 (fun r v => nth_error (fold_left (fun heap r => upd_nth heap r view_reset) (snd s) (fst s)) r = Some v) l (map view_reset m)).
  { intros l m Hi FF. induction FF as [|r v l m E FF IH]; cbn; constructor.
    - rewrite reset_heap by exact ND. destruct (in_dec _ _ _) as [_|n]; [rewrite E; reflexivity|].
      exfalso. apply n, Hi. left. reflexivity.
    - apply IH. intros r' Hr'. apply Hi. right. exact Hr'. }
  apply H; auto.
Qed.

Lemma reset_old s vs : sh s vs -> old s (o_reset s).
Proof.
  intros [F ND] r v E. unfold o_reset. cbn [fst snd]. rewrite reset_heap by exact ND.
  destruct (in_dec Nat.eq_dec r (snd s)) as [i|n].
  - exists (view_reset v). rewrite E. split; [reflexivity|]. split; [repeat split|tauto].
  - exists v. split; [exact E|]. split; [apply same_attributes_refl|auto].
Qed.

(** Last position of a grid along an axis *)
Definition reach_of (ax : axis) (g : grid) : nat :=
  match grid_bounding_box g with Ok (Some bb) => Z.to_nat (ax_hi ax bb) | _ => O end.

Lemma refresh_agree ax g s vs :
  sh s vs ->
  agree (fun s' vs' => sh s' vs' /\ old s s' /\ cut (reach_of ax g) s s') (o_refresh ax g s) (vl_refresh ax g vs).
Proof.
  intros HS. unfold o_refresh, vl_refresh, reach_of.
  destruct (grid_bounding_box g) as [[bb|]|e] eqn:Eb; cbn [rbind].
  - pose proof (fit_sh (ax_hi ax bb) true s vs HS) as H1.
    pose proof (reset_sh _ _ H1) as H2.
    pose proof (adopt_all_agree ax g _ _ H2) as H.
    destruct (o_adopt_all _ _ _) as [s'|e], (vl_adopt_all _ _ _) as [vs'|e']; cbn in H |- *; try contradiction; [|exact H].
    destruct H as [HS' [O' (more & Em & Fm)]].
    pose proof (fit_old (ax_hi ax bb) true s vs HS) as O1. pose proof (reset_old _ _ H1) as O2.
    split; [exact HS'|]. split; [eapply old_trans; [exact O1|]; eapply old_trans; [exact O2|exact O']|].
    destruct s as [heap refs].
    assert (Ef : exists fresh, snd (o_fit (ax_hi ax bb) true (heap, refs)) = firstn (Z.to_nat (ax_hi ax bb)) refs ++ fresh /\
              Forall (fun r => (List.length heap <= r)%nat) fresh).
    { cbn. eexists. split; [reflexivity|]. apply Forall_forall. intros r Hr. apply in_seq in Hr. lia. }
    destruct Ef as (fresh & Ef & Ff).
    assert (Es : snd s' = firstn (Z.to_nat (ax_hi ax bb)) refs ++ (fresh ++ more)).
    { rewrite Em. unfold o_reset at 1. cbn [snd]. rewrite Ef, app_assoc. reflexivity. }
    split.
    + exists (fresh ++ more). split; [exact Es|]. apply Forall_app. split; [exact Ff|].
      eapply Forall_impl; [|exact Fm]. cbn beta. intros r Hr.
      pose proof (old_length _ _ O1) as L1. pose proof (old_length _ _ O2) as L2. cbn [fst] in L1 |- *. lia.
    + cbn [fst snd]. intros r Hr Hn.
      assert (Hb : (r < List.length heap)%nat) by (apply (sh_bound _ _ _ HS); exact Hr).
      destruct (nth_error heap r) as [v|] eqn:Ev; [|apply nth_error_None in Ev; lia].
      assert (E1 : nth_error (fst (o_fit (ax_hi ax bb) true (heap, refs))) r = Some v).
      { cbn. rewrite nth_error_app1 by exact Hb. exact Ev. }
      assert (Hn1 : ~ In r (snd (o_fit (ax_hi ax bb) true (heap, refs)))).
      { intros Hi. apply Hn. rewrite Em. apply in_app_iff. left. exact Hi. }
      destruct (O2 r v E1) as (v2 & E2 & _ & N2). destruct (N2 Hn1) as [-> Hn2].
      destruct (O' r v E2) as (v3 & E3 & _ & N3). destruct (N3 Hn2) as [-> _]. exact E3.
  - cbn. split; [split; [constructor|constructor]|]. split.
    + intros r v E. exists v. split; [exact E|]. split; [apply same_attributes_refl|]. intros _. cbn. tauto.
    + split; [exists []; auto|]. reflexivity.
  - reflexivity.
Qed.

(** ** Tables *)

Definition shelf_of (ax : axis) (o : otable) : shelf :=
  (o_heap ax o, match o_refs ax o with Some l => l | None => [] end).

Definition rel (o : otable) (t : table) : Prop :=
  o_grid o = t_grid t /\ o_styles o = t_styles t /\ o_nature o = t_nature t /\
  forall ax,
    match o_refs ax o, t_views ax t with
    | None, None => True
    | Some refs, Some vs => sh (o_heap ax o, refs) vs
    | _, _ => False
    end.

Definition evG (o o' : otable) : Prop := forall ax, grows (shelf_of ax o) (shelf_of ax o').
Definition evO (o o' : otable) : Prop := forall ax, old (shelf_of ax o) (shelf_of ax o').
Lemma evG_refl o : evG o o. Proof. intros ax. apply grows_refl. Qed.
Lemma evO_refl o : evO o o. Proof. intros ax. apply old_refl. Qed.
Lemma evG_trans a b c : evG a b -> evG b c -> evG a c.
Proof. intros H K ax. eapply grows_trans; [apply H|apply K]. Qed.
Lemma evO_trans a b c : evO a b -> evO b c -> evO a c.
Proof. intros H K ax. eapply old_trans; [apply H|apply K]. Qed.
Lemma evG_evO a b : evG a b -> evO a b.
Proof. intros H ax. apply H. Qed.

Definition simAt {A B} (E : otable -> otable -> Prop) (o : otable) (t : table) (m : SM otable A) (n : SM table B)
    (Q : otable -> A -> B -> Prop) : Prop :=
  rel (fst (m o)) (fst (n t)) /\ E o (fst (m o)) /\ agree (Q (fst (m o))) (snd (m o)) (snd (n t)).

Lemma sim_bind {A B A' B'} (E : otable -> otable -> Prop) o t (m : SM otable A) (n : SM table B) Q (k : A -> SM otable A') (l : B -> SM table B') Q' :
  (forall a b c, E a b -> E b c -> E a c) ->
  simAt E o t m n Q ->
  (forall o' t' a b, rel o' t' -> Q o' a b -> simAt E o' t' (k a) (l b) Q') ->
  simAt E o t (sbind m k) (sbind n l) Q'.
Proof.
  intros HT (R1 & E1 & A1) H. unfold simAt, sbind.
  destruct (m o) as [o' [a|e]], (n t) as [t' [b|e']]; cbn [fst snd agree] in *; try contradiction.
  - destruct (H o' t' a b R1 A1) as (R2 & E2 & A2). split; [exact R2|]. split; [eapply HT; eassumption|exact A2].
  - split; [exact R1|]. split; [exact E1|exact A1].
Qed.

Lemma sim_ret {A B} (E : otable -> otable -> Prop) o t (a : A) (b : B) (Q : otable -> A -> B -> Prop) :
  E o o -> rel o t -> Q o a b -> simAt E o t (sret a) (sret b) Q.
Proof. intros HE HR HQ. split; [exact HR|]. split; [exact HE|exact HQ]. Qed.

Lemma sim_lift {A B} (E : otable -> otable -> Prop) o t (x : result A) (y : result B) (Q : A -> B -> Prop) :
  E o o -> rel o t -> agree Q x y -> simAt E o t (slift x) (slift y) (fun o' a b => o' = o /\ Q a b).
Proof. intros HE HR HQ. split; [exact HR|]. split; [exact HE|]. destruct x, y; cbn in *; auto. Qed.

Lemma sim_get (E : otable -> otable -> Prop) o t : E o o -> rel o t -> simAt E o t sget sget (fun o' a b => o' = o /\ a = o /\ b = t).
Proof. intros HE HR. split; [exact HR|]. split; [exact HE|]. cbn. auto. Qed.

Lemma shelf_of_set ax ax' s o : shelf_of ax (o_set ax' s o) =
  match ax, ax' with Rows, Rows | Cols, Cols => s | _, _ => shelf_of ax o end.
Proof. destruct ax, ax', s; reflexivity. Qed.

Lemma rel_set ax s vs o t : rel o t -> sh s vs -> rel (o_set ax s o) (t_set_views ax vs t).
Proof.
  intros (R1 & R2 & R3 & R4) HS.
  split; [destruct ax; exact R1|]. split; [destruct ax; exact R2|]. split; [destruct ax; exact R3|].
  intros ax'. specialize (R4 ax'). destruct ax, ax', s; cbn in *; assumption.
Qed.

Lemma rel_shelf ax o t : rel o t -> sh (shelf_of ax o) (match t_views ax t with Some vs => vs | None => [] end).
Proof.
  intros (_ & _ & _ & R). specialize (R ax). unfold shelf_of.
  destruct (o_refs ax o), (t_views ax t); try contradiction; [exact R|]. split; constructor.
Qed.

Lemma put_sim (E : otable -> otable -> Prop) ax s vs o t :
  rel o t -> sh s vs -> E o (o_set ax s o) ->
  simAt E o t (o_put ax s) (views_put ax vs) (fun o' _ _ => o' = o_set ax s o).
Proof.
  intros HR HS HE. split; [apply rel_set; assumption|]. split; [exact HE|]. reflexivity.
Qed.

Lemma set_grows ax s o : grows (shelf_of ax o) s -> evG o (o_set ax s o).
Proof. intros H ax'. rewrite shelf_of_set. destruct ax, ax'; try exact H; apply grows_refl. Qed.
Lemma set_old ax s o : old (shelf_of ax o) s -> evO o (o_set ax s o).
Proof. intros H ax'. rewrite shelf_of_set. destruct ax, ax'; try exact H; apply old_refl. Qed.

Lemma get_some ax o refs : o_refs ax o = Some refs -> o_get ax o = (o, Ok (shelf_of ax o)).
Proof. intros E. unfold o_get, sbind, sget, sret, shelf_of. rewrite E. reflexivity. Qed.

Lemma cut_nil n s s' : snd s = [] -> cut n s s' -> exists more, snd s' = snd s ++ more /\ Forall (fun r => (List.length (fst s) <= r)%nat) more.
Proof. intros E ((more & Em & F) & _). exists more. rewrite E in *. destruct n; auto. Qed.

Lemma get_sim ax o t :
  rel o t ->
  simAt evG o t (o_get ax) (views_get ax)
    (fun o' s vs => sh s vs /\ s = shelf_of ax o' /\ o_refs ax o' = Some (snd s)).
Proof.
  intros HR. pose proof HR as (R1 & R2 & R3 & R4). pose proof (R4 ax) as Ra.
  unfold o_get, views_get. unfold simAt, sbind, sget, sret, slift, sput. rewrite R1.
  destruct (o_refs ax o) as [refs|] eqn:Er, (t_views ax t) as [vs|] eqn:Et; try contradiction; cbn [fst snd agree].
  - split; [exact HR|]. split; [apply evG_refl|]. split; [exact Ra|]. unfold shelf_of. rewrite Er. auto.
  - assert (HS0 : sh (o_heap ax o, []) []) by (split; constructor).
    pose proof (refresh_agree ax (t_grid t) _ _ HS0) as H.
    destruct (o_refresh _ _ _) as [s'|e], (vl_refresh _ _ _) as [vs'|e']; cbn [agree] in H; try contradiction; cbn [fst snd agree].
    + destruct H as (HS & HO & HC).
      split; [apply rel_set; assumption|]. split.
      * apply set_grows. unfold shelf_of. rewrite Er. split; [exact HO|]. eapply cut_nil; [|exact HC]. reflexivity.
      * split; [exact HS|]. destruct ax, s'; split; reflexivity.
    + split; [exact HR|]. split; [apply evG_refl|exact H].
Qed.

Lemma o_view_eq ax p o o1 s :
  o_get ax o = (o1, Ok s) ->
  o_view ax p o = (o_set ax (o_fit p false s) o1, py_nth (snd (o_fit p false s)) (p - 1)).
Proof. intros E. unfold o_view, sbind. rewrite E. reflexivity. Qed.
Lemma view_get_eq ax p t t1 vs :
  views_get ax t = (t1, Ok vs) ->
  view_get ax p t = (t_set_views ax (fit_to_size p false vs) t1, py_nth (fit_to_size p false vs) (p - 1)).
Proof. intros E. unfold view_get, sbind. rewrite E. reflexivity. Qed.
Lemma views_get_set ax vs t : views_get ax (t_set_views ax vs t) = (t_set_views ax vs t, Ok vs).
Proof. destruct ax; reflexivity. Qed.
Lemma view_modify_eq ax p f t t1 vs v vs' :
  views_get ax t = (t1, Ok vs) -> py_nth (fit_to_size p false vs) (p - 1) = Ok v ->
  py_upd (fit_to_size p false vs) (p - 1) f = Ok vs' ->
  view_modify ax p f t = (t_set_views ax vs' (t_set_views ax (fit_to_size p false vs) t1), Ok tt).
Proof.
  intros E Ep Eu. unfold view_modify, sbind. rewrite (view_get_eq ax p t t1 vs E), Ep, views_get_set. 
  unfold slift. rewrite Eu. reflexivity.
Qed.

Lemma view_sim ax p o t :
  rel o t ->
  simAt evG o t (o_view ax p) (view_get ax p)
    (fun o' r v => holds ax r o' v /\ listed ax r o' /\
       forall f, rel (o_set_heap ax (upd_nth (o_heap ax o') r f) o')
                     (fst (view_modify ax p f t)) /\ snd (view_modify ax p f t) = Ok tt).
Proof.
  intros HR. destruct (get_sim ax o t HR) as (R1 & E1 & A1). unfold simAt.
  destruct (o_get ax o) as [o1 [s|e]] eqn:Eo, (views_get ax t) as [t1 [vs|e']] eqn:Ev; cbn [fst snd agree] in *; try contradiction.
  2: { unfold o_view, view_get, sbind. rewrite Eo, Ev. cbn [fst snd agree]. auto. }
  destruct A1 as (HS & Es & Er).
  pose proof (fit_sh p false s vs HS) as HS1. pose proof (fit_grows p s vs HS) as G1.
  pose proof (py_nth_agree _ _ (p - 1) HS1) as HP.
  rewrite (o_view_eq _ _ _ _ _ Eo), (view_get_eq _ _ _ _ _ Ev). cbn [fst snd].
  split; [apply rel_set; assumption|]. split.
  - eapply evG_trans; [exact E1|]. apply set_grows. rewrite <- Es. exact G1.
  - destruct (py_nth (snd (o_fit p false s)) (p - 1)) as [r|e], (py_nth (fit_to_size p false vs) (p - 1)) as [v|e'] eqn:Epn;
      cbn [agree] in *; try contradiction; [|exact HP].
    destruct HP as (Ev' & Hr & Hf). split; [|split].
    + destruct ax; exact Ev'.
    + exists (snd (o_fit p false s)). split; [destruct ax; reflexivity|exact Hr].
    + intros f. destruct (Hf f) as [Eu HSu]. rewrite (view_modify_eq _ _ f _ _ _ _ _ Ev Epn Eu). split; [|reflexivity].
      assert (R2 : rel (o_set ax (o_fit p false s) o1) (t_set_views ax (fit_to_size p false vs) t1)) by (apply rel_set; assumption).
      pose proof (rel_set ax _ _ _ _ R2 HSu) as R3.
      destruct ax; exact R3.
Qed.

Lemma adopt_sim ax c o t s vs :
  rel o t -> sh s vs -> s = shelf_of ax o ->
  simAt evG o t (s' <- slift (o_adopt ax c s) ;; o_put ax s') (vs' <- slift (vl_adopt ax c vs) ;; views_put ax vs')
    (fun _ _ _ => True).
Proof.
  intros HR HS Es. pose proof (adopt_agree ax c s vs HS) as HA.
  eapply sim_bind; [exact evG_trans| |].
  - apply sim_lift; [apply evG_refl|exact HR|exact HA].
  - intros o' t' s' vs' HR' (-> & HS' & HG).
    destruct (put_sim evG ax s' vs' o t' HR' HS') as (A & B & C); [apply set_grows; rewrite <- Es; exact HG|].
    split; [exact A|]. split; [exact B|exact I].
Qed.

Lemma refresh_cell_sim c o t : rel o t -> simAt evG o t (o_refresh_cell c) (refresh_cell c) (fun _ _ _ => True).
Proof.
  intros HR. unfold o_refresh_cell, refresh_cell.
  eapply sim_bind; [exact evG_trans|apply get_sim, HR|].
  intros o1 t1 s vs R1 (HS & Es & _).
  assert (H : forall (k : SM otable unit) (l : SM table unit),
    (forall o2 t2, rel o2 t2 -> simAt evG o2 t2 k l (fun _ _ _ => True)) ->
    simAt evG o1 t1 (s' <- slift (o_adopt Rows c s) ;; (o_put Rows s' ;;; k)) (vs' <- slift (vl_adopt Rows c vs) ;; (views_put Rows vs' ;;; l)) (fun _ _ _ => True)).
  { intros k l HK. pose proof (adopt_agree Rows c s vs HS) as HA.
    eapply sim_bind; [exact evG_trans|apply sim_lift; [apply evG_refl|exact R1|exact HA]|].
    intros o2 t2 s' vs' R2 (-> & HS' & HG).
    eapply sim_bind; [exact evG_trans|apply (put_sim evG Rows s' vs' o1 t2 R2 HS'); apply set_grows; rewrite <- Es; exact HG|].
    intros o3 t3 _ _ R3 _. apply HK, R3. }
  apply H. intros o2 t2 R2.
  eapply sim_bind; [exact evG_trans|apply get_sim, R2|].
  intros o3 t3 s3 vs3 R3 (HS3 & Es3 & _). apply adopt_sim; assumption.
Qed.

Lemma on_grid_sim {A} (m : SM grid A) o t : rel o t -> simAt evG o t (o_on_grid m) (on_grid m) (fun _ a b => a = b).
Proof.
  intros (R1 & R2 & R3 & R4). unfold simAt, o_on_grid, on_grid. rewrite R1. destruct (m (t_grid t)) as [g' r]. cbn [fst snd].
  split; [|split].
  - split; [reflexivity|]. split; [exact R2|]. split; [exact R3|]. intros ax. specialize (R4 ax). destruct ax; exact R4.
  - intros ax. destruct ax; apply grows_refl.
  - destruct r; reflexivity.
Qed.

Lemma agree_refl {A} (x : result A) : agree eq x x.
Proof. destruct x; reflexivity. Qed.

Lemma setitem_sim v c o t : rel o t -> simAt evG o t (o_setitem v c) (table_setitem v c) (fun _ _ _ => True).
Proof.
  intros HR. unfold o_setitem, table_setitem.
  eapply sim_bind; [exact evG_trans|apply on_grid_sim, HR|]. intros o1 t1 _ _ R1 _.
  eapply sim_bind; [exact evG_trans|apply sim_get; [apply evG_refl|exact R1]|]. intros o2 t2 x y R2 (-> & -> & ->).
  rewrite (proj1 R1).
  eapply sim_bind; [exact evG_trans|apply sim_lift; [apply evG_refl|exact R2|apply agree_refl]|].
  intros o3 t3 c1 c2 R3 (-> & ->). apply refresh_cell_sim, R3.
Qed.

Lemma siter_sim {A} (f : A -> SM otable unit) (g : A -> SM table unit) l o t :
  (forall a o t, rel o t -> simAt evG o t (f a) (g a) (fun _ _ _ => True)) ->
  rel o t -> simAt evG o t (siter f l) (siter g l) (fun _ _ _ => True).
Proof.
  intros H. revert o t. induction l as [|a l IH]; intros o t HR; cbn [siter].
  - apply sim_ret; [apply evG_refl|exact HR|exact I].
  - eapply sim_bind; [exact evG_trans|apply H, HR|]. intros o' t' _ _ R' _. apply IH, R'.
Qed.

Lemma fill_sim bb ct st na o t : rel o t -> simAt evG o t (o_fill_missing bb ct st na) (table_fill_missing bb ct st na) (fun _ _ _ => True).
Proof.
  intros HR. apply siter_sim; [|exact HR]. clear o t HR. intros xy o t HR. unfold o_fill_one, fill_one, table_contains.
  eapply sim_bind; [exact evG_trans|apply sim_get; [apply evG_refl|exact HR]|]. intros o1 t1 x y R1 (-> & -> & ->).
  rewrite (proj1 HR).
  eapply sim_bind; [exact evG_trans|apply sim_lift; [apply evG_refl|exact R1|apply agree_refl]|].
  intros o2 t2 b1 b2 R2 (-> & ->). destruct b2; [apply sim_ret; [apply evG_refl|exact R2|exact I]|].
  eapply sim_bind; [exact evG_trans|apply sim_lift; [apply evG_refl|exact R2|apply agree_refl]|].
  intros o3 t3 c1 c2 R3 (-> & ->). apply setitem_sim, R3.
Qed.

Lemma update_sim pairs o t : rel o t -> simAt evG o t (o_update pairs) (table_update pairs) (fun _ _ _ => True).
Proof. intros HR. apply siter_sim; [|exact HR]. intros kv o' t' R'. apply setitem_sim, R'. Qed.

Lemma sim_weaken {A B} (E : otable -> otable -> Prop) o t (m : SM otable A) (n : SM table B) (Q Q' : otable -> A -> B -> Prop) :
  (forall o a b, Q o a b -> Q' o a b) -> simAt E o t m n Q -> simAt E o t m n Q'.
Proof.
  intros H (A1 & A2 & A3). split; [exact A1|]. split; [exact A2|].
  destruct (snd (m o)), (snd (n t)); cbn in *; auto.
Qed.

Lemma unit_sim {A B} (E : otable -> otable -> Prop) o t (m : SM otable A) (n : SM table B) Q :
  (forall a b c, E a b -> E b c -> E a c) -> (forall o, E o o) ->
  simAt E o t m n Q -> simAt E o t (unit_of m) (unit_of n) (fun _ _ _ => True).
Proof.
  intros HT HE H. eapply sim_bind; [exact HT|exact H|]. intros o' t' a b R _. apply sim_ret; [apply HE|exact R|exact I].
Qed.

Lemma setdefault_sim v c o t : rel o t -> simAt evG o t (o_setdefault v c) (table_setdefault v c) (fun _ a b => a = b).
Proof.
  intros HR. unfold simAt, o_setdefault, table_setdefault, table_getitem. rewrite (proj1 HR).
  assert (H0 : simAt evG o t (o_setitem v c ;;; sret c) (table_setitem v c ;;; sret c) (fun _ a b => a = b)).
  { eapply sim_bind; [exact evG_trans|apply setitem_sim, HR|]. intros o' t' a b R _. apply sim_ret; [apply evG_refl|exact R|reflexivity]. }
  destruct (grid_getitem (t_grid t) v) as [d|[]]; try (split; [exact HR|split; [apply evG_refl|reflexivity]]).
  exact H0.
Qed.

(** *** Rebuilding *)

Definition evC (g : grid) (o o' : otable) : Prop := forall ax, cut (reach_of ax g) (shelf_of ax o) (shelf_of ax o').

Lemma refresh_one_sim ax g o t s vs :
  rel o t -> sh s vs -> s = shelf_of ax o ->
  simAt evO o t (s' <- slift (o_refresh ax g s) ;; o_put ax s') (vs' <- slift (vl_refresh ax g vs) ;; views_put ax vs')
    (fun o' _ _ => exists s', o' = o_set ax s' o /\ old s s' /\ cut (reach_of ax g) s s').
Proof.
  intros HR HS Es. pose proof (refresh_agree ax g s vs HS) as HA.
  eapply sim_bind; [exact evO_trans| |].
  - apply sim_lift; [apply evO_refl|exact HR|exact HA].
  - intros o' t' s' vs' HR' (-> & HS' & HO & HC).
    eapply sim_weaken; [|apply (put_sim evO ax s' vs' o t' HR' HS'), set_old; rewrite <- Es; exact HO].
    cbn. intros o2 _ _ ->. eauto.
Qed.

(** From an empty list everything is kept *)
Lemma cut_from_nil n s s1 s2 : snd s = [] -> grows s s1 -> old s1 s2 -> cut n s1 s2 -> cut n s s2.
Proof.
  intros E (O1 & m1 & E1 & F1) O2 ((m2 & E2 & F2) & _). rewrite E in *. cbn in E1. split.
  - exists (snd s2). split; [rewrite E; destruct n; reflexivity|]. rewrite E2. apply Forall_app. split.
    + rewrite E1. apply Forall_forall. intros r Hr. apply firstn_In in Hr. rewrite Forall_forall in F1. apply F1, Hr.
    + eapply Forall_impl; [|exact F2]. cbn beta. intros r Hr. pose proof (old_length _ _ O1). lia.
  - intros r Hr. rewrite E in Hr. destruct Hr.
Qed.

Lemma get_simC ax o t :
  rel o t ->
  simAt evO o t (o_get ax) (views_get ax)
    (fun o1 s vs => sh s vs /\ s = shelf_of ax o1 /\ (forall ax', ax' <> ax -> shelf_of ax' o1 = shelf_of ax' o) /\
       o_grid o1 = o_grid o /\ forall n s', old s s' -> cut n s s' -> cut n (shelf_of ax o) s').
Proof.
  intros HR. destruct (get_sim ax o t HR) as (R1 & G1 & A1). split; [exact R1|]. split; [apply evG_evO, G1|].
  assert (H : (forall ax', ax' <> ax -> shelf_of ax' (fst (o_get ax o)) = shelf_of ax' o) /\
              o_grid (fst (o_get ax o)) = o_grid o /\
              (snd (shelf_of ax o) = [] \/ fst (o_get ax o) = o)).
  { unfold shelf_of at 3. unfold o_get, sbind, sget, sret, slift, sput. destruct (o_refs ax o) as [refs|].
    - cbn [fst]. auto.
    - destruct (o_refresh ax (o_grid o) (o_heap ax o, [])) as [s|e]; cbn [fst snd]; [|auto].
      split; [|split; [destruct ax; reflexivity|auto]].
      intros ax' Hn. rewrite shelf_of_set. destruct ax, ax'; congruence. }
  specialize (G1 ax). destruct H as (H1 & H2 & H3).
  destruct (snd (o_get ax o)) as [s|e], (snd (views_get ax t)) as [vs|e']; cbn [agree] in *; try contradiction; [|exact A1].
  destruct A1 as (HS & Es & _). split; [exact HS|]. split; [exact Es|]. split; [exact H1|]. split; [exact H2|].
  intros n s' HO HC. destruct H3 as [E|E].
  - eapply cut_from_nil; [exact E|exact G1|rewrite <- Es; exact HO|rewrite <- Es; exact HC].
  - rewrite E in Es. rewrite <- Es. exact HC.
Qed.

Lemma refresh_all_sim o t :
  rel o t -> simAt evO o t o_refresh_all refresh_all (fun o' _ _ => evC (o_grid o) o o' /\ o_grid o' = o_grid o).
Proof.
  intros HR. unfold o_refresh_all, refresh_all.
  eapply sim_bind; [exact evO_trans|apply get_simC, HR|].
  intros o1 t1 s1 vs1 R1 (HS1 & Es1 & HC1 & Hg1 & K1).
  eapply sim_bind; [exact evO_trans|apply sim_get; [apply evO_refl|exact R1]|].
  intros o2 t2 x y R2 (-> & -> & ->). rewrite <- (proj1 R1), Hg1.
  eapply sim_bind; [exact evO_trans|apply sim_lift; [apply evO_refl|exact R2|apply (refresh_agree Rows (o_grid o) s1 vs1 HS1)]|].
  intros o3 t3 s3 vs3 R3 (-> & HS3 & O3 & C3).
  eapply sim_bind; [exact evO_trans|apply (put_sim evO Rows s3 vs3 o1 t3 R3 HS3), set_old; rewrite <- Es1; exact O3|].
  intros o4 t4 _ _ R4 ->.
  eapply sim_bind; [exact evO_trans|apply get_simC, R4|].
  intros o5 t5 s5 vs5 R5 (HS5 & Es5 & HC5 & Hg5 & K5).
  eapply sim_weaken; [|apply (refresh_one_sim Cols (o_grid o) o5 t5 s5 vs5 R5 HS5 Es5)].
  cbn beta. intros o6 _ _ (s6 & -> & O6 & C6). split; [|exact (eq_trans Hg5 Hg1)].
  intros [].
  - rewrite shelf_of_set. rewrite (HC5 Rows) by discriminate. rewrite shelf_of_set. apply K1; assumption.
  - rewrite shelf_of_set. pose proof (K5 _ _ O6 C6) as H. rewrite shelf_of_set, (HC1 Cols) in H by discriminate. exact H.
Qed.

Lemma rebuild_sim {A} (m : SM grid A) o t :
  rel o t -> simAt evO o t (o_on_grid m ;;; o_refresh_all) (on_grid m ;;; refresh_all) (fun o' _ _ => evC (o_grid o') o o').
Proof.
  intros HR. unfold simAt, sbind. destruct (on_grid_sim m o t HR) as (R1 & G1 & A1).
  assert (Hs : forall ax, shelf_of ax (fst (o_on_grid m o)) = shelf_of ax o).
  { intros ax. unfold o_on_grid. destruct (m (o_grid o)). destruct ax; reflexivity. }
  destruct (o_on_grid m o) as [o1 [a|e]], (on_grid m t) as [t1 [b|e']]; cbn [fst snd agree] in *; try contradiction.
  - destruct (refresh_all_sim o1 t1 R1) as (R2 & E2 & A2). split; [exact R2|]. split.
    + eapply evO_trans; [apply evG_evO, G1|exact E2].
    + destruct (snd (o_refresh_all o1)), (snd (refresh_all t1)); cbn [agree] in *; try contradiction; [|exact A2].
      destruct A2 as [C E]. rewrite E. intros ax. rewrite <- Hs. apply C.
  - split; [exact R1|]. split; [apply evG_evO, G1|exact A1].
Qed.

(** ** Calls *)

Definition ins_body (ax : axis) (v : view) (ct : content) (st : option styles) (na : nature) (w h : Z) : SM table unit :=
  i <- slift (next_free ax v) ;;
  let co := at_pos ax (v_pos v) i in
  c <- slift (cell_new ct st (inherit na (v_nature v)) (cx co) (cy co) w h) ;;
  table_setitem (PCoord (c_min c)) c.

Lemma insert_sim ax r v ct st na w h o t :
  rel o t -> holds ax r o v ->
  simAt evG o t (o_insert ax r ct st na w h) (ins_body ax v ct st na w h) (fun _ _ _ => True).
Proof.
  intros HR Hv.
  assert (E : forall x, o_deref ax r o = (o, Ok x) -> o_insert ax r ct st na w h o =
     (i <- slift (next_free ax x) ;;
      c <- slift (cell_new ct st (inherit na (v_nature x)) (cx (at_pos ax (v_pos x) i)) (cy (at_pos ax (v_pos x) i)) w h) ;;
      o_setitem (PCoord (c_min c)) c) o).
  { intros x Ex. unfold o_insert. unfold sbind at 1. rewrite Ex. reflexivity. }
  unfold simAt. rewrite (E v).
  2: { unfold o_deref, sbind, sget, sret. unfold holds in Hv. rewrite Hv. reflexivity. }
  clear E. unfold ins_body. cbv zeta.
  change (simAt evG o t
     (i <- slift (next_free ax v) ;;
      c <- slift (cell_new ct st (inherit na (v_nature v)) (cx (at_pos ax (v_pos v) i)) (cy (at_pos ax (v_pos v) i)) w h) ;;
      o_setitem (PCoord (c_min c)) c)
     (i <- slift (next_free ax v) ;;
      c <- slift (cell_new ct st (inherit na (v_nature v)) (cx (at_pos ax (v_pos v) i)) (cy (at_pos ax (v_pos v) i)) w h) ;;
      table_setitem (PCoord (c_min c)) c) (fun _ _ _ => True)).
  eapply sim_bind; [exact evG_trans|apply sim_lift; [apply evG_refl|exact HR|apply agree_refl]|].
  intros o1 t1 i i' R1 (-> & ->).
  eapply sim_bind; [exact evG_trans|apply sim_lift; [apply evG_refl|exact R1|apply agree_refl]|].
  intros o2 t2 c c' R2 (-> & ->). apply setitem_sim, R2.
Qed.

Definition setter (op : top) : bool :=
  match op with TSetNature _ _ _ | TSetStyles _ _ _ | TUpdateStyles _ _ _ => true | _ => false end.

Lemma o_popitem_eq o : o_popitem o = (o, Err (match o_grid o with [] => EKeyError | _ => ETypeError end)).
Proof. unfold o_popitem, sbind, sget, slift, grid_iter. destruct (o_grid o); reflexivity. Qed.

Lemma sim_evO {A B} o t (m : SM otable A) (n : SM table B) Q : simAt evG o t m n Q -> simAt evO o t m n (fun _ _ _ => True).
Proof.
  intros (A1 & A2 & A3). split; [exact A1|]. split; [apply evG_evO, A2|].
  destruct (snd (m o)), (snd (n t)); cbn in *; auto.
Qed.

(** The calls which keep all the views *)
Lemma keeping_sim op o t :
  rel o t -> rebuilds op = false -> setter op = false ->
  simAt evG o t (otstep op) (tstep op) (fun _ _ _ => True).
Proof.
  intros HR Hb Hs. destruct op; try discriminate; cbn [otstep tstep].
  - apply setitem_sim, HR.
  - apply fill_sim, HR.
  - change (insert_cell ax pos ct st na width height) with (v <- view_get ax pos ;; ins_body ax v ct st na width height).
    eapply sim_bind; [exact evG_trans|apply view_sim, HR|]. intros o' t' r v R' (Hv & _). apply insert_sim; assumption.
  - eapply unit_sim; [exact evG_trans|exact evG_refl|apply get_sim, HR].
  - eapply unit_sim; [exact evG_trans|exact evG_refl|apply view_sim, HR].
  - eapply unit_sim; [exact evG_trans|exact evG_refl|apply setdefault_sim, HR].
  - apply update_sim, HR.
  - unfold simAt, unit_of, sbind. rewrite o_popitem_eq, table_popitem_eq, (proj1 HR). cbn. split; [exact HR|].
    split; [apply evG_refl|reflexivity].
Qed.

(** The calls which rebuild the views *)
Lemma rebuilding_sim op o t :
  rel o t -> rebuilds op = true ->
  simAt evO o t (otstep op) (tstep op) (fun o' _ _ => evC (o_grid o') o o').
Proof.
  intros HR Hb. destruct op; try discriminate; cbn [otstep tstep]; try (apply rebuild_sim, HR).
  unfold o_pop, table_pop, unit_of, simAt, sbind, sget, slift, sret, table_getitem. rewrite (proj1 HR).
  destruct (grid_getitem (t_grid t) v) as [d|e].
  - destruct (rebuild_sim (grid_delitem v) o t HR) as (A1 & A2 & A3). fold (o_delitem v) in *. fold (table_delitem v) in *.
    destruct (o_delitem v o) as [o' [u|e]], (table_delitem v t) as [t' [u'|e']]; cbn in *; try contradiction; auto.
  - cbn. split; [exact HR|]. split; [apply evO_refl|reflexivity].
Qed.

Lemma rebuild_fails {A} (m : SM grid A) o t oh e :
  rel o t -> tinv t oh -> (forall g, grid_inv g -> grid_inv (fst (m g))) ->
  snd ((o_on_grid m ;;; o_refresh_all) o) = Err e -> evG o (fst ((o_on_grid m ;;; o_refresh_all) o)).
Proof.
  intros HR [HS HM] Hm. unfold sbind. destruct (on_grid_sim m o t HR) as (R1 & G1 & A1).
  destruct (on_grid_st m t _ oh HS) as (t1 & E1 & HS1).
  destruct (o_on_grid m o) as [o1 [a|x]], (on_grid m t) as [t2 [b|x']]; cbn [fst snd agree] in *; try contradiction; [|auto].
  intros E. exfalso. injection E1 as -> _.
  destruct (refresh_all_st t1 _ oh HS1) as (t3 & E3 & _); [apply Hm, HM|].
  destruct (refresh_all_sim o1 t1 R1) as (_ & _ & A2). rewrite E3, E in A2. exact A2.
Qed.

Lemma rebuilding_fails op o t oh e :
  rel o t -> tinv t oh -> rebuilds op = true -> snd (otstep op o) = Err e -> evG o (fst (otstep op o)).
Proof.
  intros HR HT Hb. destruct op; try discriminate; cbn [otstep].
  - apply (rebuild_fails (grid_delitem v) o t oh e HR HT). intros; apply grid_delitem_inv; assumption.
  - apply (rebuild_fails (grid_merge start end_ app) o t oh e HR HT). intros; apply grid_merge_inv; assumption.
  - apply (rebuild_fails (grid_expand v width height app) o t oh e HR HT). intros; apply grid_expand_inv; assumption.
  - pose proof (rebuild_fails (grid_delitem v) o t oh e HR HT) as H. fold (o_delitem v) in H.
    unfold o_pop, unit_of, sbind, sget, slift, sret. destruct (grid_getitem (o_grid o) v) as [d|x]; [|intros _; apply evG_refl].
    destruct (o_delitem v o) as [o' [u|x]]; cbn [fst snd] in *; [discriminate|]. apply H. intros; apply grid_delitem_inv; assumption.
Qed.

(** *** Attributes *)

Definition setting (op : top) : axis * Z * (view -> view) :=
  match op with
  | TSetNature ax p na => (ax, p, with_nature na)
  | TSetStyles ax p st => (ax, p, with_styles (styles_of st))
  | TUpdateStyles ax p st => (ax, p, fun v => with_styles (dupdate (v_styles v) st) v)
  | _ => (Rows, 0, fun v => v)
  end.

Lemma setting_otstep op : setter op = true ->
  let '(ax, p, f) := setting op in
  otstep op = (r <- o_view ax p ;; o_modify ax r f) /\ tstep op = view_modify ax p f /\
  forall v, same_cells v (f v).
Proof. destruct op; try discriminate; intros _; cbn; (split; [reflexivity|split; [reflexivity|repeat split]]). Qed.

Lemma modify_eq ax r f o v : holds ax r o v ->
  o_modify ax r f o = (o_set_heap ax (upd_nth (o_heap ax o) r f) o, Ok tt).
Proof. unfold holds. intros H. unfold o_modify, o_deref, sbind, sget, sret, sput. rewrite H. reflexivity. Qed.

Lemma setting_sim ax p f o t :
  rel o t ->
  let x := (r <- o_view ax p ;; o_modify ax r f) o in
  let y := view_modify ax p f t in
  rel (fst x) (fst y) /\ snd x = snd y /\
  (exists o1 r, evG o o1 /\ listed ax r o1 /\ fst x = o_set_heap ax (upd_nth (o_heap ax o1) r f) o1 \/
   evG o (fst x) /\ snd x <> Ok tt /\ r = O /\ o1 = o).
Proof.
  intros HR. cbv zeta. destruct (view_sim ax p o t HR) as (R1 & G1 & A1). unfold sbind.
  destruct (o_view ax p o) as [o1 [r|e]] eqn:Eo.
  - cbn [fst snd] in *. destruct (snd (view_get ax p t)) as [v|e'] eqn:Ev; cbn in A1; [|contradiction].
    destruct A1 as (Hv & Hl & Hf). rewrite (modify_eq ax r f o1 v Hv). cbn [fst snd].
    destruct (Hf f) as [Rf ->]. split; [exact Rf|]. split; [reflexivity|]. exists o1, r. left. auto.
  - cbn [fst snd] in *. unfold view_modify, sbind. destruct (view_get ax p t) as [t1 [v|e']] eqn:Ev; cbn in A1, R1; [contradiction|].
    cbn [fst snd]. split; [exact R1|]. split; [congruence|]. exists o, O. right. split; [exact G1|]. split; [discriminate|auto].
Qed.

(** *** Objects and positions *)

Lemma rel_listed ax r o t : rel o t -> listed ax r o ->
  exists vs i v, t_views ax t = Some vs /\ nth_error vs i = Some v /\ holds ax r o v /\
                 (exists refs, o_refs ax o = Some refs /\ nth_error refs i = Some r).
Proof.
  intros HR (refs & E & Hi). pose proof (proj2 (proj2 (proj2 HR)) ax) as H. rewrite E in H.
  destruct (t_views ax t) as [vs|]; [|contradiction]. destruct H as [F ND]. cbn [fst snd] in *.
  apply In_nth_error in Hi as [i Hi]. exists vs, i.
  assert (Hx : exists v, nth_error vs i = Some v /\ nth_error (o_heap ax o) r = Some v).
  { clear ND E. revert i Hi. induction F as [|r' v l m Ev F IH]; intros [|i] Hi; cbn in *; try discriminate.
    - injection Hi as ->. eauto.
    - apply IH, Hi. }
  destruct Hx as (v & E1 & E2). exists v. eauto 8.
Qed.

Lemma tinv_pos_ok ax t oh vs : tinv t oh -> t_views ax t = Some vs -> pos_ok vs.
Proof.
  intros [HS _] E. pose proof (proj2 HS ax) as H. unfold gh in H. rewrite E in H.
  destruct (ghost_of ax oh); [apply H|contradiction].
Qed.

Lemma set_views_eta ax t vs : t_views ax t = Some vs -> t_set_views ax vs t = t.
Proof. destruct ax, t; cbn; intros ->; reflexivity. Qed.
Lemma o_set_eta ax o refs : o_refs ax o = Some refs -> o_set ax (o_heap ax o, refs) o = o.
Proof. destruct ax, o; cbn; intros ->; reflexivity. Qed.

Lemma view_get_listed ax t oh vs i v :
  tinv t oh -> t_views ax t = Some vs -> nth_error vs i = Some v ->
  view_get ax (v_pos v) t = (t, Ok v) /\ v_pos v = Z.of_nat i + 1 /\
  forall f, view_modify ax (v_pos v) f t = (t_set_views ax (upd_nth vs i f) t, Ok tt).
Proof.
  intros HT E Ei. pose proof (tinv_pos_ok ax t oh vs HT E i v Ei) as Hp.
  assert (Hl : (i < List.length vs)%nat) by (apply nth_error_Some; congruence).
  assert (Ev : views_get ax t = (t, Ok vs)) by (unfold views_get, sbind, sget, sret; rewrite E; reflexivity).
  assert (Ef : fit_to_size (v_pos v) false vs = vs) by (apply fit_small; lia).
  assert (En : py_nth vs (v_pos v - 1) = Ok v).
  { destruct (py_nth_pos vs (v_pos v)) as (a & -> & Ea); [lia|]. rewrite Hp in Ea.
    replace (Z.to_nat (Z.of_nat i + 1 - 1)) with i in Ea by lia. congruence. }
  split; [|split; [exact Hp|]].
  - rewrite (view_get_eq _ _ _ _ _ Ev), Ef, (set_views_eta _ _ _ E), En. reflexivity.
  - intros f. assert (Eu : py_upd (fit_to_size (v_pos v) false vs) (v_pos v - 1) f = Ok (upd_nth vs i f)).
    { rewrite Ef, py_upd_pos by lia. do 2 f_equal. lia. }
    rewrite <- Ef in En at 1. rewrite (view_modify_eq _ _ f _ _ _ _ _ Ev En Eu), Ef, (set_views_eta _ _ _ E). reflexivity.
Qed.

Lemma o_view_listed ax r v o t oh :
  rel o t -> tinv t oh -> listed ax r o -> holds ax r o v -> o_view ax (v_pos v) o = (o, Ok r).
Proof.
  intros HR HT Hl Hv. destruct (rel_listed ax r o t HR Hl) as (vs & i & v' & E & Ei & Hv' & refs & Er & Eri).
  assert (v' = v) as -> by (unfold holds in *; congruence).
  destruct (view_get_listed ax t oh vs i v HT E Ei) as (_ & Hp & _).
  assert (Hi : (i < List.length refs)%nat) by (apply nth_error_Some; congruence).
  rewrite (o_view_eq _ _ _ _ _ (get_some ax o refs Er)). unfold shelf_of. rewrite Er.
  assert (Ef : o_fit (v_pos v) false (o_heap ax o, refs) = (o_heap ax o, refs)).
  { unfold o_fit, zrange. replace (Z.to_nat (v_pos v - Z.of_nat (List.length refs))) with O by lia.
    cbn. rewrite !app_nil_r. reflexivity. }
  rewrite Ef, (o_set_eta _ _ _ Er). cbn [snd].
  destruct (py_nth_pos refs (v_pos v)) as (a & -> & Ea); [lia|]. rewrite Hp in Ea.
  replace (Z.to_nat (Z.of_nat i + 1 - 1)) with i in Ea by lia. do 2 f_equal. congruence.
Qed.

Lemma modify_listed ax r v f o t oh :
  rel o t -> tinv t oh -> listed ax r o -> holds ax r o v ->
  rel (fst (o_modify ax r f o)) (fst (view_modify ax (v_pos v) f t)) /\
  snd (o_modify ax r f o) = Ok tt /\ snd (view_modify ax (v_pos v) f t) = Ok tt.
Proof.
  intros HR HT Hl Hv. destruct (view_sim ax (v_pos v) o t HR) as (_ & _ & A).
  rewrite (o_view_listed ax r v o t oh HR HT Hl Hv) in A. cbn [fst snd] in A.
  destruct (rel_listed ax r o t HR Hl) as (vs & i & v' & E & Ei & Hv' & _).
  assert (v' = v) as -> by (unfold holds in *; congruence).
  destruct (view_get_listed ax t oh vs i v HT E Ei) as (Eg & _). rewrite Eg in A. cbn in A.
  destruct A as (_ & _ & Hf). rewrite (modify_eq ax r f o v Hv). cbn [fst snd].
  destruct (Hf f) as [A B]. auto.
Qed.

Lemma modify_dropped ax r f o t :
  rel o t -> ~ listed ax r o -> rel (o_set_heap ax (upd_nth (o_heap ax o) r f) o) t.
Proof.
  intros (R1 & R2 & R3 & R4) Hn. split; [destruct ax; exact R1|]. split; [destruct ax; exact R2|]. split; [destruct ax; exact R3|].
  intros ax'. pose proof (R4 ax') as H.
  assert (Er : o_refs ax' (o_set_heap ax (upd_nth (o_heap ax o) r f) o) = o_refs ax' o) by (destruct ax, ax'; reflexivity).
  rewrite Er. destruct (o_refs ax' o) as [refs|] eqn:E, (t_views ax' t) as [vs|]; try contradiction; [|exact I].
  assert (Hd : ax' = ax \/ o_heap ax' (o_set_heap ax (upd_nth (o_heap ax o) r f) o) = o_heap ax' o) by (destruct ax, ax'; auto).
  destruct Hd as [->|Hd]; [|rewrite Hd; exact H].
  replace (o_heap ax (o_set_heap ax (upd_nth (o_heap ax o) r f) o)) with (upd_nth (o_heap ax o) r f) by (destruct ax; reflexivity).
  assert (Hn' : ~ In r refs) by (intros Hi; apply Hn; exists refs; auto).
  destruct H as [F ND]. split; [|exact ND]. cbn [fst snd] in *. clear - F Hn'.
  induction F as [|r' v l m Ev F IH]; constructor.
  - rewrite nth_error_upd_nth. replace (Nat.eqb r' r) with false; [exact Ev|].
    symmetry. apply Nat.eqb_neq. intros ->. apply Hn'. left. reflexivity.
  - apply IH. intros Hi. apply Hn'. right. exact Hi.
Qed.

Lemma modify_missing ax r f o : nth_error (o_heap ax o) r = None -> o_modify ax r f o = (o, Err EAttributeError).
Proof. intros H. unfold o_modify, o_deref, sbind, sget, sraise. rewrite H. reflexivity. Qed.
Lemma insert_missing ax r ct st na w h o : nth_error (o_heap ax o) r = None -> o_insert ax r ct st na w h o = (o, Err EAttributeError).
Proof. intros H. unfold o_insert, o_deref, sbind, sget, sraise. rewrite H. reflexivity. Qed.

Lemma listed_dec ax r o : listed ax r o \/ ~ listed ax r o.
Proof.
  unfold listed. destruct (o_refs ax o) as [refs|].
  - destruct (in_dec Nat.eq_dec r refs); [left; eauto|]. right. intros (l & [= <-] & H). auto.
  - right. intros (l & H & _). discriminate.
Qed.

Lemma ins_body_reach ax v ct st na w h t : treachable t -> treachable (fst (ins_body ax v ct st na w h t)).
Proof.
  intros HR. unfold ins_body, sbind, slift. destruct (next_free ax v) as [i|e]; [|exact HR]. cbv zeta.
  destruct (cell_new _ _ _ _ _ _ _) as [c|e]; [|exact HR]. apply (treach_step t (TSet (PCoord (c_min c)) c) HR).
Qed.

Lemma otstep_rel op o t : rel o t -> rel (fst (otstep op o)) (fst (tstep op t)) /\ snd (otstep op o) = snd (tstep op t).
Proof.
  intros HR. destruct (setter op) eqn:Es.
  - pose proof (setting_otstep op Es) as H. destruct (setting op) as [[ax p] f]. destruct H as (-> & -> & _).
    destruct (setting_sim ax p f o t HR) as (A & B & _). auto.
  - destruct (rebuilds op) eqn:Eb.
    + destruct (rebuilding_sim op o t HR Eb) as (A & _ & B). split; [exact A|].
      destruct (snd (otstep op o)) as [[]|e], (snd (tstep op t)) as [[]|e']; cbn in B; try contradiction; congruence.
    + destruct (keeping_sim op o t HR Eb Es) as (A & _ & B). split; [exact A|].
      destruct (snd (otstep op o)) as [[]|e], (snd (tstep op t)) as [[]|e']; cbn in B; try contradiction; congruence.
Qed.

Lemma new_rel cells st na o : o_new cells st na = Ok o ->
  exists t, table_new cells st na = Ok t /\ rel o t.
Proof.
  unfold o_new, table_new. destruct (grid_new cells) as [g|e]; cbn; [|discriminate]. intros [= <-].
  eexists. split; [reflexivity|]. split; [reflexivity|]. split; [reflexivity|]. split; [reflexivity|]. intros []; exact I.
Qed.

Lemma object_rel op o t : treachable t -> rel o t -> exists t', treachable t' /\ rel (fst (ostep op o)) t'.
Proof.
  intros HT HR. destruct (treachable_tinv t HT) as (oh & Ht).
  assert (Hmod : forall ax r f top, (forall p, tstep (top p) = view_modify ax p f) ->
    exists t', treachable t' /\ rel (fst (o_modify ax r f o)) t').
  { intros ax r f top Htop. destruct (nth_error (o_heap ax o) r) as [v|] eqn:Ev.
    - destruct (listed_dec ax r o) as [Hl|Hn].
      + destruct (modify_listed ax r v f o t oh HR Ht Hl Ev) as (A & _). eexists. split; [|exact A].
        rewrite <- Htop. apply treach_step, HT.
      + exists t. split; [exact HT|]. rewrite (modify_eq ax r f o v Ev). apply modify_dropped; assumption.
    - exists t. rewrite (modify_missing ax r f o Ev). auto. }
  destruct op; cbn [ostep].
  - destruct (otstep_rel op o t HR) as [A _]. eexists. split; [apply (treach_step t op HT)|exact A].
  - destruct (nth_error (o_heap ax o) r) as [v|] eqn:Ev.
    + destruct (insert_sim ax r v ct st na width height o t HR Ev) as (A & _). eexists.
      split; [apply (ins_body_reach ax v ct st na width height t HT)|exact A].
    + exists t. rewrite insert_missing by exact Ev. auto.
  - apply (Hmod ax r (with_nature na) (fun p => TSetNature ax p na)). reflexivity.
  - apply (Hmod ax r (with_styles (styles_of st)) (fun p => TSetStyles ax p st)). reflexivity.
  - apply (Hmod ax r (fun v => with_styles (dupdate (v_styles v) st) v) (fun p => TUpdateStyles ax p st)). reflexivity.
Qed.

Lemma oreachable_rel o : oreachable o -> exists t, treachable t /\ rel o t.
Proof.
  induction 1 as [cells st na o E|o op _ (t & HT & HR)].
  - destruct (new_rel cells st na o E) as (t & Et & HR). exists t. split; [eapply treach_new, Et|exact HR].
  - eapply object_rel; eassumption.
Qed.

Lemma rel_shows o t : rel o t -> shows o t.
Proof.
  intros (R1 & R2 & R3 & R4). split; [exact R1|]. split; [exact R2|]. split; [exact R3|].
  intros ax. specialize (R4 ax). destruct (o_refs ax o), (t_views ax t); try contradiction; [apply R4|exact I].
Qed.

Lemma shows_fun o t t' : shows o t -> shows o t' -> t = t'.
Proof.
  intros (A1 & A2 & A3 & A4) (B1 & B2 & B3 & B4).
  assert (H : forall ax, t_views ax t = t_views ax t').
  { intros ax. specialize (A4 ax). specialize (B4 ax).
    destruct (o_refs ax o) as [refs|], (t_views ax t) as [vs|], (t_views ax t') as [vs'|]; try contradiction; [|reflexivity].
    f_equal. revert vs' B4. induction A4 as [|r v l m E F IH]; intros vs' B4; inversion B4; subst; [reflexivity|].
    f_equal; [unfold holds in *; congruence|auto]. }
  pose proof (H Rows) as H1. pose proof (H Cols) as H2. destruct t, t'; cbn in *. congruence.
Qed.

Lemma shows_rel o t : oreachable o -> shows o t -> treachable t /\ rel o t.
Proof.
  intros HR HS. destruct (oreachable_rel o HR) as (t0 & HT & R0).
  rewrite (shows_fun o t t0 HS (rel_shows o t0 R0)). auto.
Qed.

(** ** Staying in the list *)

Lemma listed_shelf ax r o : listed ax r o <-> In r (snd (shelf_of ax o)).
Proof.
  unfold listed, shelf_of. cbn [snd]. destruct (o_refs ax o) as [refs|].
  - split; [intros (l & [= <-] & H); exact H|eauto].
  - split; [intros (l & H & _); discriminate|intros []].
Qed.

Lemma evG_listed ax r o o' : evG o o' -> listed ax r o -> listed ax r o'.
Proof.
  rewrite !listed_shelf. intros H Hl. destruct (H ax) as (_ & more & -> & _). apply in_app_iff. auto.
Qed.

Lemma set_heap_refs ax ax' l o : o_refs ax (o_set_heap ax' l o) = o_refs ax o.
Proof. destruct ax, ax'; reflexivity. Qed.
Lemma set_heap_heap ax ax' l o : o_heap ax (o_set_heap ax' l o) = match ax, ax' with Rows, Rows | Cols, Cols => l | _, _ => o_heap ax o end.
Proof. destruct ax, ax'; reflexivity. Qed.
Lemma set_heap_listed ax ax' r l o : listed ax r (o_set_heap ax' l o) <-> listed ax r o.
Proof. unfold listed. rewrite set_heap_refs. reflexivity. Qed.

(** What any call does to the objects *)
Definition tame (o o' : otable) : Prop :=
  forall ax r v, holds ax r o v ->
  exists v', holds ax r o' v' /\ v_pos v' = v_pos v /\
             (~ listed ax r o -> ~ listed ax r o' /\ same_cells v v').

Lemma evO_holds o o' ax r v : evO o o' -> holds ax r o v ->
  exists v', holds ax r o' v' /\ same_attributes v v' /\ (~ listed ax r o -> v' = v /\ ~ listed ax r o').
Proof.
  intros H Hv. destruct (H ax r v Hv) as (v' & E & A & N). exists v'. split; [exact E|]. split; [exact A|].
  rewrite !listed_shelf. exact N.
Qed.

Lemma evO_tame o o' : evO o o' -> tame o o'.
Proof.
  intros H ax r v Hv. destruct (evO_holds o o' ax r v H Hv) as (v' & E & A & N). exists v'. split; [exact E|].
  split; [apply A|]. intros Hn. destruct (N Hn) as [-> Hn']. split; [exact Hn'|repeat split].
Qed.

Lemma set_heap_tame ax r f o : (forall v, same_cells v (f v)) -> tame o (o_set_heap ax (upd_nth (o_heap ax o) r f) o).
Proof.
  intros Hf ax' r' v Hv. unfold holds in *. rewrite set_heap_heap.
  assert (H : nth_error (o_heap ax' (o_set_heap ax (upd_nth (o_heap ax o) r f) o)) r' = Some v \/
              nth_error (o_heap ax' (o_set_heap ax (upd_nth (o_heap ax o) r f) o)) r' = Some (f v)).
  { rewrite set_heap_heap. destruct ax, ax'; auto; rewrite nth_error_upd_nth, Hv; destruct (Nat.eqb r' r); auto. }
  rewrite set_heap_heap in H. destruct H as [H|H]; rewrite H.
  - exists v. split; [reflexivity|]. split; [reflexivity|]. intros Hn. rewrite set_heap_listed. split; [exact Hn|repeat split].
  - exists (f v). split; [reflexivity|]. split; [apply Hf|]. intros Hn. rewrite set_heap_listed. split; [exact Hn|apply Hf].
Qed.

Lemma tame_trans a b c : tame a b -> tame b c -> tame a c.
Proof.
  intros H K ax r v Hv. destruct (H ax r v Hv) as (v1 & E1 & P1 & N1). destruct (K ax r v1 E1) as (v2 & E2 & P2 & N2).
  exists v2. split; [exact E2|]. split; [congruence|]. intros Hn. destruct (N1 Hn) as [Hn1 (A1 & A2 & A3)].
  destruct (N2 Hn1) as [Hn2 (B1 & B2 & B3)]. split; [exact Hn2|]. repeat split; congruence.
Qed.
Lemma tame_refl o : tame o o.
Proof. apply evO_tame, evO_refl. Qed.

(** The calls which set no attribute *)
Lemma ostep_evO op o t : rel o t -> sets_some_attribute op = false -> evO o (fst (ostep op o)).
Proof.
  intros HR Hs. destruct op; try discriminate; cbn [ostep].
  - assert (Es : setter op = false) by (destruct op; try reflexivity; discriminate).
    destruct (rebuilds op) eqn:Eb.
    + apply (rebuilding_sim op o t HR Eb).
    + apply evG_evO, (keeping_sim op o t HR Eb Es).
  - destruct (nth_error (o_heap ax o) r) as [v|] eqn:Ev.
    + apply evG_evO, (insert_sim ax r v ct st na width height o t HR Ev).
    + rewrite insert_missing by exact Ev. apply evO_refl.
Qed.

Lemma o_modify_tame ax r f o : (forall v, same_cells v (f v)) -> tame o (fst (o_modify ax r f o)).
Proof.
  intros Hf. destruct (nth_error (o_heap ax o) r) as [v|] eqn:Ev.
  - rewrite (modify_eq ax r f o v Ev). apply set_heap_tame, Hf.
  - rewrite modify_missing by exact Ev. apply tame_refl.
Qed.

Lemma ostep_tame op o t : rel o t -> tame o (fst (ostep op o)).
Proof.
  intros HR. destruct (sets_some_attribute op) eqn:Es; [|eapply evO_tame, ostep_evO; eassumption].
  destruct op; try discriminate; cbn [ostep]; try (apply o_modify_tame; repeat split).
  assert (Es' : setter op = true) by (destruct op; try reflexivity; discriminate).
  pose proof (setting_otstep op Es') as H. destruct (setting op) as [[ax p] f]. destruct H as (-> & _ & Hf).
  destruct (setting_sim ax p f o t HR) as (_ & _ & o1 & r & [(G & _ & E)|(G & _)]).
  - rewrite E. eapply tame_trans; [apply evO_tame, evG_evO, G|]. apply set_heap_tame, Hf.
  - apply evO_tame, evG_evO, G.
Qed.

Lemma ostep_keeps op o t oh ax r e :
  rel o t -> tinv t oh -> drops op = false \/ snd (ostep op o) = Err e -> listed ax r o -> listed ax r (fst (ostep op o)).
Proof.
  intros HR HT Hd Hl.
  assert (Hmod : forall ax' r' f, listed ax r (fst (o_modify ax' r' f o))).
  { intros ax' r' f. destruct (nth_error (o_heap ax' o) r') as [v|] eqn:Ev.
    - rewrite (modify_eq ax' r' f o v Ev). apply set_heap_listed, Hl.
    - rewrite modify_missing by exact Ev. exact Hl. }
  destruct op; cbn [ostep drops] in *; try apply Hmod.
  - destruct (rebuilds op) eqn:Eb.
    + destruct Hd as [Hd|Hd]; [discriminate|]. eapply evG_listed; [eapply rebuilding_fails; eassumption|exact Hl].
    + destruct (setter op) eqn:Es.
      * pose proof (setting_otstep op Es) as H. destruct (setting op) as [[ax' p] f]. destruct H as (-> & _ & Hf).
        destruct (setting_sim ax' p f o t HR) as (_ & _ & o1 & r' & [(G & _ & E)|(G & _)]).
        -- rewrite E. apply set_heap_listed. eapply evG_listed; eassumption.
        -- eapply evG_listed; eassumption.
      * eapply evG_listed; [apply (keeping_sim op o t HR Eb Es)|exact Hl].
  - destruct (nth_error (o_heap ax0 o) r0) as [v|] eqn:Ev.
    + eapply evG_listed; [apply (insert_sim ax0 r0 v ct st na width height o t HR Ev)|exact Hl].
    + rewrite insert_missing by exact Ev. exact Hl.
Qed.

Lemma firstn_nth_In {A} (l : list A) n i a : NoDup l -> nth_error l i = Some a -> (In a (firstn n l) <-> (i < n)%nat).
Proof.
  intros ND Ei. split.
  - intros H. apply In_nth_error in H as [j Hj].
    assert (Hjl : (j < List.length (firstn n l))%nat) by (apply nth_error_Some; congruence).
    rewrite firstn_length in Hjl.
    assert (Ej : nth_error l j = Some a).
    { rewrite <- (firstn_skipn n l). rewrite nth_error_app1; [exact Hj|]. rewrite firstn_length. lia. }
    assert (i = j); [|lia]. eapply NoDup_nth_error; [exact ND| |congruence]. apply nth_error_Some. congruence.
  - intros H. assert (Hl : (i < List.length l)%nat) by (apply nth_error_Some; congruence).
    eapply nth_error_In with (n := i). rewrite <- (firstn_skipn n l) in Ei.
    rewrite nth_error_app1 in Ei; [exact Ei|]. rewrite firstn_length. lia.
Qed.

Lemma last_pos_reach ax t n : tinv t (None, None) \/ True -> all_valid (t_grid t) -> last_pos ax t n -> 0 <= n /\ Z.to_nat n = reach_of ax (t_grid t).
Proof.
  intros _ HV [[E ->]|(bb & E & ->)]; unfold reach_of.
  - rewrite E. cbn. lia.
  - rewrite E. split; [|destruct ax; reflexivity].
    destruct (bounding_box_spec _ HV) as [[_ E']|(_ & bb' & E' & V & _)]; rewrite E in E'; [discriminate|].
    injection E' as <-. destruct V, ax; lia.
Qed.

Lemma ostep_drops op o t oh ax r v n t' :
  rel o t -> tinv t oh -> drops op = true -> snd (ostep op o) = Ok tt -> listed ax r o -> holds ax r o v ->
  rel (fst (ostep op o)) t' -> all_valid (t_grid t') -> last_pos ax t' n ->
  (listed ax r (fst (ostep op o)) <-> v_pos v <= n) /\
  (~ listed ax r (fst (ostep op o)) -> holds ax r (fst (ostep op o)) v).
Proof.
  intros HR HT Hd Ho Hl Hv HR' HV' Hn. destruct op; try discriminate. cbn [ostep drops] in *.
  destruct (rebuilding_sim op o t HR Hd) as (_ & _ & A). rewrite Ho in A.
  destruct (snd (tstep op t)) as [u|]; [|contradiction]. cbn in A. specialize (A ax).
  destruct (last_pos_reach ax t' n (or_intror I) HV' Hn) as [H0 Hr]. rewrite <- (proj1 HR') in Hr.
  destruct (rel_listed ax r o t HR Hl) as (vs & i & v' & E & Ei & Hv' & refs & Er & Eri).
  assert (v' = v) as -> by (unfold holds in *; congruence).
  destruct (view_get_listed ax t oh vs i v HT E Ei) as (_ & Hp & _).
  pose proof (rel_shelf ax o t HR) as [_ ND]. 
  assert (Es : snd (shelf_of ax o) = refs) by (unfold shelf_of; rewrite Er; reflexivity). rewrite Es in ND.
  destruct A as ((more & Em & Fm) & HC). rewrite Es, <- Hr in Em. split.
  - rewrite listed_shelf, Em, in_app_iff, (firstn_nth_In refs _ i r ND Eri). split; [|intros; left; lia].
    intros [H|H]; [lia|]. exfalso. rewrite Forall_forall in Fm. apply Fm in H.
    assert (r < List.length (fst (shelf_of ax o)))%nat; [|lia]. apply nth_error_Some. unfold holds in Hv. cbn. congruence.
  - rewrite listed_shelf in *. intros H. unfold holds. change (o_heap ax (fst (otstep op o))) with (fst (shelf_of ax (fst (otstep op o)))).
    rewrite HC; assumption.
Qed.

(** ** The cells of an object which was dropped *)

Definition sound (ax : axis) (v : view) : Prop :=
  exists h, v_caught v = filter (can_catch ax v) h /\ forall c, In c h -> valid (c_box c).

Lemma listed_sound ax r o t oh v : rel o t -> tinv t oh -> listed ax r o -> holds ax r o v -> sound ax v.
Proof.
  intros HR [HS HM] Hl Hv. destruct (rel_listed ax r o t HR Hl) as (vs & i & v' & E & Ei & Hv' & _).
  assert (v' = v) as -> by (unfold holds in *; congruence).
  pose proof (proj2 HS ax) as H. unfold gh in H. rewrite E in H. destruct (ghost_of ax oh) as [h|]; [|contradiction].
  destruct H as (_ & HC & HV). exists h. split; [apply HV; eapply nth_error_In, Ei|]. intros c Hc. apply HC, Hc.
Qed.

Lemma sound_same ax v v' : same_cells v v' -> sound ax v -> sound ax v'.
Proof.
  intros (E1 & _ & E3) (h & Eh & Hv). exists h. split; [|exact Hv]. rewrite E3, Eh.
  apply filter_ext. intros c. apply can_catch_pos. congruence.
Qed.


Lemma orun_app o h op : orun o (h ++ [op]) = fst (ostep op (orun o h)).
Proof. unfold orun. rewrite fold_left_app. reflexivity. Qed.
Lemma orun_oreachable o h : oreachable o -> oreachable (orun o h).
Proof.
  intros HR. induction h as [|op h IH] using rev_ind; [exact HR|]. rewrite orun_app. apply oreach_step, IH.
Qed.

Lemma listed_holds ax r o t : rel o t -> listed ax r o -> exists v, holds ax r o v.
Proof. intros HR Hl. destruct (rel_listed ax r o t HR Hl) as (_ & _ & v & _ & _ & H & _). eauto. Qed.

Lemma oreachable_facts o : oreachable o -> exists t oh, treachable t /\ rel o t /\ tinv t oh /\ all_valid (t_grid t).
Proof.
  intros HR. destruct (oreachable_rel o HR) as (t & HT & Hr). destruct (treachable_tinv t HT) as (oh & Ht).
  exists t, oh. split; [exact HT|]. split; [exact Hr|]. split; [exact Ht|]. apply Ht.
Qed.

Lemma last_pos_exists ax t : all_valid (t_grid t) -> exists n, last_pos ax t n.
Proof.
  intros HV. unfold last_pos. destruct (bounding_box_spec _ HV) as [[E _]|(_ & bb & E & _)]; eauto.
Qed.

Lemma once_sound ax r o : once_listed ax r o -> exists v, holds ax r o v /\ sound ax v /\ 1 <= v_pos v.
Proof.
  intros (o0 & h & HR & Hl & <-). induction h as [|op h IH] using rev_ind.
  - cbn. destruct (oreachable_facts o0 HR) as (t & oh & HT & Hr & Ht & _).
    destruct (rel_listed ax r o0 t Hr Hl) as (vs & i & v & E & Ei & Hv & _). exists v. split; [exact Hv|].
    split; [eapply listed_sound; eassumption|]. destruct (view_get_listed ax t oh vs i v Ht E Ei) as (_ & Hp & _). lia.
  - rewrite orun_app. destruct IH as (v & Hv & HS & Hp).
    pose proof (orun_oreachable o0 h HR) as HR1. set (o := orun o0 h) in *.
    destruct (oreachable_facts o HR1) as (t & oh & HT & Hr & Ht & _).
    destruct (oreachable_facts (fst (ostep op o)) (oreach_step o op HR1)) as (t' & oh' & HT' & Hr' & Ht' & HV').
    destruct (ostep_tame op o t Hr ax r v Hv) as (v' & Hv' & Hp' & N). exists v'. split; [exact Hv'|]. split; [|lia].
    destruct (listed_dec ax r (fst (ostep op o))) as [Hl'|Hn']; [eapply listed_sound; eassumption|].
    destruct (listed_dec ax r o) as [Hl1|Hn1]; [|destruct (N Hn1) as [_ Hc]; eapply sound_same; eassumption].
    destruct (drops op) eqn:Ed; [|exfalso; apply Hn'; eapply (ostep_keeps op o t oh ax r EKeyError); eauto].
    destruct (snd (ostep op o)) as [[]|e] eqn:Es; [|exfalso; apply Hn'; eapply (ostep_keeps op o t oh ax r e); eauto].
    destruct (last_pos_exists ax t' HV') as (n & Hn).
    destruct (ostep_drops op o t oh ax r v n t' Hr Ht Ed Es Hl1 Hv Hr' HV' Hn) as [_ K].
    pose proof (K Hn') as Hk. assert (v' = v) as -> by (unfold holds in *; congruence). exact HS.
Qed.

Lemma insert_place ax r v ct st na w h o t :
  rel o t -> holds ax r o v -> sound ax v -> 1 <= v_pos v -> 1 <= w -> 1 <= h ->
  exists i, first_free ax (v_pos v) i (v_caught v) /\
    rel (fst (o_insert ax r ct st na w h o))
        (fst (table_setitem (PCoord (place ax (v_pos v) i)) (MkCell ct (styles_of st) (inherit na (v_nature v)) (seat ax (v_pos v) i w h)) t)) /\
    snd (o_insert ax r ct st na w h o) =
    snd (table_setitem (PCoord (place ax (v_pos v) i)) (MkCell ct (styles_of st) (inherit na (v_nature v)) (seat ax (v_pos v) i w h)) t).
Proof.
  intros HR Hv (hh & Eh & HV) Hp Hw Hh.
  assert (Ef : v_caught v = filter (can_catch ax v) (v_caught v)).
  { rewrite Eh. clear. induction hh as [|c l IH]; cbn; [reflexivity|]. destruct (can_catch ax v c) eqn:E; cbn; rewrite ?E; congruence. }
  assert (HV' : forall c, In c (v_caught v) -> valid (c_box c)) by (intros c Hc; rewrite Eh in Hc; apply filter_In in Hc as [Hc _]; auto).
  destruct (P_TableStep.next_free_spec ax v (v_caught v) Ef HV') as (i & Ei & Hi & Hfree & Hleast).
  exists i. split.
  { split; [exact Hi|]. split.
    - intros d Hd. specialize (Hfree d Hd). destruct ax; exact Hfree.
    - intros j Hj HF. destruct (Hleast j Hj) as (c & Hc & Hcv). apply (HF c Hc). destruct ax; exact Hcv. }
  destruct (insert_sim ax r v ct st na w h o t HR Hv) as (A & _ & B).
  assert (E : ins_body ax v ct st na w h t = table_setitem (PCoord (place ax (v_pos v) i)) (MkCell ct (styles_of st) (inherit na (v_nature v)) (seat ax (v_pos v) i w h)) t).
  { unfold ins_body, sbind, slift. rewrite Ei. cbv zeta.
    destruct (P_TableStep.cell_new_cases ct st (inherit na (v_nature v)) (cx (at_pos ax (v_pos v) i)) (cy (at_pos ax (v_pos v) i)) w h) as [(_ & _ & ->)|[N _]];
      [destruct ax; cbn; lia..| |lia].
    destruct ax; reflexivity. }
  rewrite <- E. split; [exact A|].
  destruct (snd (o_insert ax r ct st na w h o)) as [[]|e], (snd (ins_body ax v ct st na w h t)) as [[]|e']; cbn in B; try contradiction; congruence.
Qed.

Lemma set_heap_other ax r f o ax' r' v :
  ~ (ax' = ax /\ r' = r) -> holds ax' r' o v -> holds ax' r' (o_set_heap ax (upd_nth (o_heap ax o) r f) o) v.
Proof.
  intros Hn Hv. unfold holds in *. rewrite set_heap_heap.
  destruct ax, ax'; auto; rewrite nth_error_upd_nth; destruct (Nat.eqb r' r) eqn:E; auto;
    apply Nat.eqb_eq in E; exfalso; auto.
Qed.

Lemma ostep_frozen op o t ax r v :
  rel o t -> ~ listed ax r o -> holds ax r o v -> ~ sets_object ax r op -> holds ax r (fst (ostep op o)) v.
Proof.
  intros HR Hn Hv Hs. destruct (sets_some_attribute op) eqn:Es.
  - assert (Hmod : forall ax' r' f, ~ (ax' = ax /\ r' = r) -> holds ax r (fst (o_modify ax' r' f o)) v).
    { intros ax' r' f Hd. destruct (nth_error (o_heap ax' o) r') as [w|] eqn:Ew.
      - rewrite (modify_eq ax' r' f o w Ew). cbn [fst]. apply set_heap_other; [|exact Hv]. intros [-> ->]. auto.
      - rewrite modify_missing by exact Ew. exact Hv. }
    destruct op; try discriminate; cbn [ostep sets_object] in *; try (apply Hmod; exact Hs).
    assert (Es' : setter op = true) by (destruct op; try reflexivity; discriminate).
    pose proof (setting_otstep op Es') as H. destruct (setting op) as [[ax' p] f]. destruct H as (-> & _ & _).
    destruct (setting_sim ax' p f o t HR) as (_ & _ & o1 & r' & [(G & Hl & E)|(G & _)]).
    + rewrite E. destruct (evO_holds o o1 ax r v (evG_evO _ _ G) Hv) as (v1 & Hv1 & _ & N).
      destruct (N Hn) as [-> Hn1]. apply set_heap_other; [|exact Hv1]. intros [-> ->]. auto.
    + destruct (evO_holds o _ ax r v (evG_evO _ _ G) Hv) as (v1 & Hv1 & _ & N). destruct (N Hn) as [-> _]. exact Hv1.
  - destruct (evO_holds o _ ax r v (ostep_evO op o t HR Es) Hv) as (v1 & Hv1 & _ & N). destruct (N Hn) as [-> _]. exact Hv1.
Qed.
