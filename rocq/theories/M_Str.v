(** * Python strings: the few methods used by the parsers and the builders

    Strings are sequences of bytes (UTF-8); only ASCII characters are given a meaning (white space,
    digits, letters). *)
From Verif Require Import Base M_Regex.

(** [s.startswith(p)], [s.endswith(p)] *)
Definition starts_with (p s : string) : bool := String.prefix p s.
Fixpoint ends_with (p s : string) : bool :=
  if String.eqb p s then true else match s with EmptyString => false | String _ s' => ends_with p s' end.

(** [s.split(c)] on one character *)
Fixpoint split_on (c : ascii) (s : string) : list string :=
  match s with
  | EmptyString => [EmptyString]
  | String a s' =>
      if Ascii.eqb a c then EmptyString :: split_on c s'
      else match split_on c s' with
           | w :: ws => String a w :: ws
           | [] => [String a EmptyString]
           end
  end.
(** [" ".join(l)] *)
Definition join_space (l : list string) : string := String.concat " " l.

(** The truth value of a string or of None *)
Definition truthy (o : option string) : bool :=
  match o with Some (String _ _) => true | _ => false end.

(** [int(s)]: white space around, a sign, digits which may be separated by one underscore *)
Definition is_space (c : ascii) : bool :=
  let n := nat_of_ascii c in (Nat.leb 9 n && Nat.leb n 13) || (Nat.leb 28 n && Nat.leb n 32).
Fixpoint lstrip (s : list ascii) : list ascii :=
  match s with c :: s' => if is_space c then lstrip s' else s | [] => [] end.
Definition strip (s : list ascii) : list ascii := rev (lstrip (rev (lstrip s))).
Fixpoint int_digits (s : list ascii) (acc : Z) : result Z :=
  match s with
  | [] => Err EValueError
  | c :: s' =>
      if is_digit c then
        let acc' := 10 * acc + digit_value c in
        match s' with
        | [] => Ok acc'
        | "_"%char :: s'' => int_digits s'' acc'
        | _ => int_digits s' acc'
        end
      else Err EValueError
  end.
Definition py_int (s : string) : result Z :=
  match strip (list_ascii_of_string s) with
  | "-"%char :: s' => n <-? int_digits s' 0 ;; Ok (- n)
  | "+"%char :: s' => int_digits s' 0
  | s' => int_digits s' 0
  end.

(** [int(re.findall(r"\d+", s)[0])] *)
Definition first_int (s : string) : result Z :=
  match re_first (RPlus is_digit) (list_ascii_of_string s) with
  | Some w => Ok (int_of_digits (fst (fst w)))
  | None => Err EIndexError
  end.

(** benker/common/lxml_qname.py [QName(ns, name).text]; the namespace None, or not empty *)
Definition qname (ns : option string) (name : string) : string :=
  match ns with
  | None => name
  | Some uri => String "{"%char (String.append uri (String "}"%char name))
  end.
(** [QName(tag).localname] *)
Fixpoint after_brace (s : string) : string :=
  match s with
  | EmptyString => EmptyString
  | String c s' => if Ascii.eqb c "}"%char then s' else after_brace s'
  end.
Definition localname (tag : string) : string :=
  match tag with String c s => if Ascii.eqb c "{"%char then after_brace s else tag | EmptyString => tag end.

(** A python dictionary literal used as a function, [d\[k\]] *)
Definition lookup {V} (d : dict V) (k : string) : result V :=
  match dget d k with Some v => Ok v | None => Err EKeyError end.
