(** * Regular expressions of the standard module [re] (the constructs used by benker)

    Backtracking semantics: [ms r s] lists the ways [r] matches at the beginning of [s], in the order
    in which the engine tries them; each way is the text matched, the groups captured and the rest of
    the input. *)
From Verif Require Import Base.

Inductive regex : Type :=
| REps
| RChar (p : ascii -> bool)        (* one character of a class *)
| RStar (p : ascii -> bool)        (* class followed by a greedy star *)
| RSeq (a b : regex)
| RAlt (a b : regex)
| ROpt (a : regex)                 (* greedy ? *)
| RGroup (n : nat) (a : regex)     (* capturing group *)
| REnd.                            (* $ without MULTILINE: the end or before a final newline *)

Definition way : Type := list ascii * list (nat * list ascii) * list ascii.

Fixpoint star (p : ascii -> bool) (s : list ascii) : list way :=
  match s with
  | [] => [([], [], [])]
  | c :: s' =>
      if p c then map (fun w => (c :: fst (fst w), snd (fst w), snd w)) (star p s') ++ [([], [], s)]
      else [([], [], s)]
  end.

Fixpoint ms (r : regex) (s : list ascii) : list way :=
  match r with
  | REps => [([], [], s)]
  | RChar p => match s with c :: s' => if p c then [([c], [], s')] else [] | [] => [] end
  | RStar p => star p s
  | RSeq a b =>
      flat_map (fun w => map (fun w' => (fst (fst w) ++ fst (fst w'), snd (fst w) ++ snd (fst w'), snd w'))
                           (ms b (snd w)))
        (ms a s)
  | RAlt a b => ms a s ++ ms b s
  | ROpt a => ms a s ++ [([], [], s)]
  | RGroup n a => map (fun w => (fst (fst w), (n, fst (fst w)) :: snd (fst w), snd w)) (ms a s)
  | REnd => match s with
            | [] => [([], [], s)]
            | [c] => if Nat.eqb (nat_of_ascii c) 10 then [([], [], s)] else []
            | _ => []
            end
  end.

(** [re.match] *)
Definition re_match (r : regex) (s : list ascii) : option way := hd_error (ms r s).

(** [re.search], or the first item of [re.findall] *)
Fixpoint re_first (r : regex) (s : list ascii) : option way :=
  match re_match r s with
  | Some w => Some w
  | None => match s with [] => None | _ :: s' => re_first r s' end
  end.

(** [mo.group(n)] *)
Definition group (n : nat) (w : way) : option (list ascii) :=
  match find (fun kv => Nat.eqb (fst kv) n) (snd (fst w)) with
  | Some kv => Some (snd kv)
  | None => None
  end.

(** Classes and literals *)
Definition is_char (c : ascii) : ascii -> bool := Ascii.eqb c.
Definition is_digit (c : ascii) : bool := Nat.leb 48 (nat_of_ascii c) && Nat.leb (nat_of_ascii c) 57.
Definition RLit (s : string) : regex :=
  fold_right (fun c r => RSeq (RChar (is_char c)) r) REps (list_ascii_of_string s).
Definition RPlus (p : ascii -> bool) : regex := RSeq (RChar p) (RStar p).

(** [int(s)] of a string of digits *)
Definition digit_value (c : ascii) : Z := Z.of_nat (nat_of_ascii c) - 48.
Definition int_of_digits (s : list ascii) : Z := fold_left (fun n c => 10 * n + digit_value c) s 0.
