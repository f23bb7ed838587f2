(** * Specification vocabulary: numbers in texts *)
From Verif Require Import Base S_Units.

(** White space, as python sees it (ASCII) *)
Definition blank (c : ascii) : Prop :=
  In (nat_of_ascii c) [9; 10; 11; 12; 13; 28; 29; 30; 31; 32]%nat.

(** Groups of digits separated by underscores *)
Inductive grouped : list (list ascii) -> list ascii -> Prop :=
| gr_one g : grouped [g] g
| gr_more g gs s : grouped gs s -> grouped (g :: gs) (g ++ "_"%char :: s).

(** The texts [int(s)] accepts, with the number they denote *)
Definition int_text (s : string) (n : Z) : Prop :=
  exists b1 b2 sg k gs body m,
    list_ascii_of_string s = b1 ++ sg ++ body ++ b2 /\ Forall blank b1 /\ Forall blank b2 /\
    sign_of sg k /\ grouped gs body /\ Forall (fun g => g <> []) gs /\ digits_value (List.concat gs) m /\ n = k * m.

(** The first number (a run of digits) of a text *)
Definition first_number (s : string) (n : Z) : Prop :=
  exists p ds q, list_ascii_of_string s = p ++ ds ++ q /\
    (forall c, In c p -> ~ digit c) /\ ds <> [] /\ digits_value ds n /\
    (forall c q', q = c :: q' -> ~ digit c).
