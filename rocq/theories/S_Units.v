(** * Specification vocabulary for units *)
From Coq Require Import QArith Qabs.
From Verif Require Import Base.
Open Scope Z_scope.

Definition unit_names : list string := ["cm"; "dm"; "ft"; "in"; "mm"; "pc"; "pt"; "px"; "m"]%string.

(** Decimal digits and their values *)
Definition digits : list (ascii * Z) :=
  [("0", 0); ("1", 1); ("2", 2); ("3", 3); ("4", 4); ("5", 5); ("6", 6); ("7", 7); ("8", 8); ("9", 9)]%char%Z.
Definition digit (c : ascii) : Prop := In c (map fst digits).

(** Positional value of a list of digits *)
Inductive digits_value : list ascii -> Z -> Prop :=
| dv_nil : digits_value [] 0
| dv_cons c d l n : In (c, d) digits -> digits_value l n ->
    digits_value (c :: l) (d * 10 ^ Z.of_nat (List.length l) + n).

(** Decimal numerals and the number they denote: an optional sign, digits, optionally a point and
    digits; digits are required at the end. *)
Inductive sign_of : list ascii -> Z -> Prop :=
| sg_none : sign_of [] 1
| sg_plus : sign_of ["+"%char] 1
| sg_minus : sign_of ["-"%char] (-1).
Inductive numeral : list ascii -> Q -> Prop :=
| num_int sg s ds n : sign_of sg s -> ds <> [] -> digits_value ds n ->
    numeral (sg ++ ds) (inject_Z (s * n))
| num_dec sg s ip fp m n : sign_of sg s -> fp <> [] -> digits_value ip m -> digits_value fp n ->
    numeral (sg ++ ip ++ "."%char :: fp)
      (inject_Z s * (inject_Z m + inject_Z n / inject_Z (10 ^ Z.of_nat (List.length fp))))%Q.

Definition prefix_of (p s : list ascii) : Prop := exists r, s = p ++ r.

(** [longest P p s]: [p] is the longest prefix of [s] in [P] *)
Definition longest (P : list ascii -> Prop) (p s : list ascii) : Prop :=
  P p /\ prefix_of p s /\ forall q, P q -> prefix_of q s -> (List.length q <= List.length p)%nat.

Definition is_numeral (s : list ascii) : Prop := exists q, numeral s q.
Definition is_unit (s : list ascii) : Prop := In (string_of_list_ascii s) unit_names.

(** [reads s num u]: in [s] the first place where a numeral starts has [num] (the longest one),
    followed by the unit [u] (the longest one), or [u] is empty and no unit follows *)
Definition reads_width (s num u : list ascii) : Prop :=
  exists pre rest,
    s = pre ++ num ++ rest /\
    longest is_numeral num (num ++ rest) /\
    (forall a b, s = a ++ b -> (exists q, is_numeral q /\ prefix_of q b) -> (List.length pre <= List.length a)%nat) /\
    (longest is_unit u rest \/ (u = [] /\ forall v, is_unit v -> ~ prefix_of v rest)).

(** The units, in millimetres: metric units; the inch; the foot has 12 inches; 72 points (or pixels)
    in an inch.  For the pica this is the definition of the library, 12 to the inch, half of the
    typographic one (12 points, 6 to the inch): see [C36_pica_refuted]. *)
Inductive millimetres : string -> Q -> Prop :=
| mm_mm : millimetres "mm" 1
| mm_cm : millimetres "cm" 10
| mm_dm : millimetres "dm" 100
| mm_m : millimetres "m" 1000
| mm_in : millimetres "in" (254 # 10)
| mm_ft q : millimetres "in" q -> millimetres "ft" (12 * q)
| mm_pt q : millimetres "in" q -> millimetres "pt" (q / 72)
| mm_px q : millimetres "pt" q -> millimetres "px" q
| mm_pc q : millimetres "in" q -> millimetres "pc" (q / 12).

(** [r] is the multiple of 0.001 nearest to [q]; in the middle, the even one *)
Definition nearest_milli (q r : Q) : Prop :=
  exists n, (r == n # 1000)%Q /\
    (forall m, Qabs ((n # 1000) - q) <= Qabs ((m # 1000) - q))%Q /\
    (forall m, m <> n -> Qabs ((n # 1000) - q) == Qabs ((m # 1000) - q) -> Z.even n = true)%Q.
