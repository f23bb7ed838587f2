(** * Model of benker/units.py

    Floating point numbers are idealised: exact rational arithmetic. *)
From Coq Require Import QArith Qround.
From Verif Require Import Base M_Regex.
Open Scope Z_scope.

(** units.py:11-21 UNITS, in metres *)
Definition UNITS : dict Q :=
  [("mm", 1 # 1000); ("dm", 1 # 10); ("cm", 1 # 100); ("m", 1 # 1);
   ("in", 254 # 10000); ("ft", 3048 # 10000); ("px", 254 # 720000); ("pt", 254 # 720000);
   ("pc", 254 # 120000)]%string%Q.

(** [round(q, 3)]: to the nearest, ties to even *)
Definition round_even (q : Q) : Z :=
  let n := Qfloor q in
  match Qcompare (q - inject_Z n) (1 # 2) with
  | Lt => n
  | Gt => n + 1
  | Eq => if Z.even n then n else n + 1
  end.
Definition round3 (q : Q) : Q := Qmake (round_even (q * (1000 # 1))) 1000.

Definition unit_length (u : string) : result Q :=
  match dget UNITS u with Some q => Ok q | None => Err EKeyError end.

(** units.py:24-47 *)
Definition convert_value (value : Q) (unit_in unit_out : string) : result Q :=
  u <-? unit_length unit_in ;;
  v <-? unit_length unit_out ;;
  Ok (round3 (value * u / v)%Q).

(** units.py:75: the regular expression
    ([+-]?(?:[0-9]*[.])?[0-9]+)(cm|dm|ft|in|mm|pc|pt|px|m)? *)
Definition is_sign (c : ascii) : bool := Ascii.eqb c "+"%char || Ascii.eqb c "-"%char.
Definition number_re : regex :=
  RSeq (ROpt (RChar is_sign))
    (RSeq (ROpt (RSeq (RStar is_digit) (RChar (is_char "."%char)))) (RPlus is_digit)).
Definition unit_re : regex :=
  RAlt (RLit "cm") (RAlt (RLit "dm") (RAlt (RLit "ft") (RAlt (RLit "in") (RAlt (RLit "mm")
    (RAlt (RLit "pc") (RAlt (RLit "pt") (RAlt (RLit "px") (RLit "m")))))))).
Definition width_re : regex := RSeq (RGroup 1 number_re) (ROpt (RGroup 2 unit_re)).

(** [float(s)] of a string matched by [number_re] *)
Definition not_sign (s : list ascii) : list ascii :=
  match s with c :: s' => if is_sign c then s' else s | [] => [] end.
Definition negative (s : list ascii) : bool :=
  match s with c :: _ => Ascii.eqb c "-"%char | [] => false end.
Fixpoint split_dot (s : list ascii) : list ascii * list ascii :=
  match s with
  | [] => ([], [])
  | c :: s' => if Ascii.eqb c "."%char then ([], s')
               else let '(a, b) := split_dot s' in (c :: a, b)
  end.
Definition py_float (s : list ascii) : Q :=
  let '(ip, fp) := split_dot (not_sign s) in
  let m := int_of_digits (ip ++ fp) in
  Qmake (if negative s then - m else m) (Z.to_pos (10 ^ Z.of_nat (List.length fp))).

(** units.py:50-77 *)
Definition parse_width (width default_unit : string) : result (Q * string) :=
  match re_first width_re (list_ascii_of_string width) with
  | None => Err EIndexError
  | Some w =>
      let number := match group 1 w with Some s => s | None => [] end in
      let unit := match group 2 w with Some s => string_of_list_ascii s | None => EmptyString end in
      Ok (py_float number, if String.eqb unit "" then default_unit else unit)
  end.
