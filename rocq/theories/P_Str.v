(** * Facts about strings *)
From Verif Require Import Base M_Geometry M_Xml M_Cell M_Regex M_Str M_Table S_Units S_Cals.

Lemma append_cons c s t : String.append (String c s) t = String c (String.append s t).
Proof. reflexivity. Qed.
Lemma append_nil_r s : String.append s "" = s.
Proof. induction s; cbn; congruence. Qed.
Lemma append_inj_l p s t : String.append p s = String.append p t -> s = t.
Proof. induction p as [|c p IH]; cbn [String.append]; [auto|]. intros [= H]. auto. Qed.
Lemma list_of_append s t : list_ascii_of_string (String.append s t) = list_ascii_of_string s ++ list_ascii_of_string t.
Proof. induction s as [|c s IH]; cbn [String.append list_ascii_of_string app]; congruence. Qed.
Lemma list_of_inj s t : list_ascii_of_string s = list_ascii_of_string t -> s = t.
Proof. intros H. rewrite <- (string_of_list_ascii_of_string s), H. apply string_of_list_ascii_of_string. Qed.

Lemma starts_with_spec p s : starts_with p s = true <-> exists r, s = String.append p r.
Proof.
  unfold starts_with. revert s. induction p as [|c p IH]; intros s; cbn [prefix String.append].
  - split; [intros _; exists s; reflexivity|destruct s; reflexivity].
  - destruct s as [|d s]; [split; [discriminate|intros [r H]; discriminate]|].
    cbn [prefix]. destruct (ascii_dec c d) as [->|N].
    + rewrite IH. split; intros [r H]; exists r; congruence.
    + split; [discriminate|]. intros [r H]. congruence.
Qed.

Lemma ends_with_spec p s : ends_with p s = true <-> exists r, s = String.append r p.
Proof.
  induction s as [|c s IH]; cbn [ends_with]; destruct (String.eqb_spec p EmptyString).
  - subst. split; [exists ""%string; reflexivity|reflexivity].
  - split; [discriminate|]. intros [[|] H]; [cbn in H; congruence|discriminate].
  - subst. cbn. rewrite IH. split; intros _; [exists (String c s); symmetry; apply append_nil_r|exists s; symmetry; apply append_nil_r].
  - destruct (String.eqb_spec p (String c s)) as [->|N].
    + split; [exists ""%string; reflexivity|reflexivity].
    + rewrite IH. split; intros [r H].
      * exists (String c r). cbn. congruence.
      * destruct r as [|d r]; [cbn in H; congruence|]. injection H as -> H. exists r. exact H.
Qed.

(** ** Words *)

Lemma split_on_not_nil c s : split_on c s <> [].
Proof. destruct s as [|a s]; cbn; [discriminate|]. destruct (Ascii.eqb a c); [discriminate|]. destruct (split_on c s); discriminate. Qed.

Lemma concat_cons sep w ws : ws <> [] -> String.concat sep (w :: ws) = String.append w (String.append sep (String.concat sep ws)).
Proof. destruct ws; [congruence|reflexivity]. Qed.

Lemma split_on_words s : words s (split_on " "%char s).
Proof.
  split; [|split; [apply split_on_not_nil|]].
  - induction s as [|a s IH]; [reflexivity|]. cbn [split_on]. destruct (Ascii.eqb_spec a " "%char) as [->|N].
    + rewrite concat_cons by apply split_on_not_nil. rewrite <- IH. reflexivity.
    + destruct (split_on " " s) as [|w [|w' ws]] eqn:E; [destruct (split_on_not_nil _ _ E)| |].
      * cbn in *. congruence.
      * rewrite concat_cons in * by discriminate. rewrite IH at 1. reflexivity.
  - induction s as [|a s IH]; intros w; cbn [split_on].
    + intros [<-|[]] [].
    + destruct (Ascii.eqb_spec a " "%char) as [->|N].
      * intros [<-|H]; [intros []|apply IH, H].
      * destruct (split_on " " s) as [|w' ws]; intros [<-|H]; cbn [list_ascii_of_string In].
        -- intros [->|[]]; congruence.
        -- destruct H.
        -- intros [->|H]; [congruence|]. exact (IH w' (or_introl eq_refl) H).
        -- apply IH. right. exact H.
Qed.

Lemma split_on_plain w : ~ In " "%char (list_ascii_of_string w) -> split_on " "%char w = [w].
Proof.
  induction w as [|a w IH]; intros H; [reflexivity|]. cbn [split_on]. cbn [list_ascii_of_string In] in H.
  destruct (Ascii.eqb_spec a " "%char) as [->|N]; [tauto|]. rewrite IH by tauto. reflexivity.
Qed.
Lemma split_on_app w s : ~ In " "%char (list_ascii_of_string w) ->
  split_on " "%char (String.append w (String " "%char s)) = w :: split_on " "%char s.
Proof.
  induction w as [|a w IH]; intros H; [reflexivity|]. rewrite append_cons. cbn [split_on]. cbn [list_ascii_of_string In] in H.
  destruct (Ascii.eqb_spec a " "%char) as [->|N]; [tauto|]. rewrite IH by tauto. reflexivity.
Qed.

Lemma words_split s ws : words s ws -> ws = split_on " "%char s.
Proof.
  intros (-> & HN & H). induction ws as [|w ws IH]; [congruence|]. destruct ws as [|w' ws].
  - cbn [String.concat]. symmetry. apply split_on_plain, H. left. reflexivity.
  - rewrite concat_cons by discriminate.
    change (String.append " " ?x) with (String " "%char x).
    rewrite split_on_app by (apply H; left; reflexivity). rewrite <- IH; [reflexivity|discriminate|].
    intros x Hx. apply H. right. exact Hx.
Qed.

(** ** The last word which ... *)

Lemma fold_last (p : string -> bool) l acc :
  fold_left (fun value part => if p part then Some part else value) l acc =
  match find p (rev l) with Some w => Some w | None => acc end.
Proof.
  revert acc. induction l as [|x l IH]; intros acc; [reflexivity|]. cbn [fold_left rev]. rewrite IH.
  clear IH. induction (rev l) as [|y m IH]; cbn [app find].
  - destruct (p x); reflexivity.
  - destruct (p y); [reflexivity|exact IH].
Qed.
Lemma find_last (p : string -> bool) l w :
  find p (rev l) = Some w <-> exists a b, l = a ++ w :: b /\ p w = true /\ forall x, In x b -> p x = false.
Proof.
  split.
  - intros H. rewrite <- (rev_involutive l). induction (rev l) as [|y m IH]; [discriminate|]. cbn [find rev] in *.
    destruct (p y) eqn:E.
    + injection H as ->. exists (rev m), []. split; [reflexivity|]. split; [exact E|intros x []].
    + destruct (IH H) as (a & b & -> & Hw & Hb). exists a, (b ++ [y]). split; [rewrite <- app_assoc; reflexivity|].
      split; [exact Hw|]. intros x Hx. apply in_app_iff in Hx as [Hx|[<-|[]]]; auto.
  - intros (a & b & -> & Hw & Hb). rewrite rev_app_distr. cbn [rev]. rewrite <- app_assoc. cbn [app].
    assert (Hb' : forall x, In x (rev b) -> p x = false) by (intros x Hx; apply Hb, in_rev, Hx).
    induction (rev b) as [|y m IH]; cbn [app find]; [rewrite Hw; reflexivity|].
    rewrite (Hb' y (or_introl eq_refl)). apply IH. intros x Hx. apply Hb'. right. exact Hx.
Qed.

(** ** Expanded names *)

Lemma qname_expanded ns n : qname ns n = expanded ns n.
Proof. destruct ns; reflexivity. Qed.
Lemma qname_inj ns a b : qname ns a = qname ns b -> a = b.
Proof.
  destruct ns as [u|]; [|auto]. unfold qname. intros [= H]. apply append_inj_l in H. congruence.
Qed.
