(** * Model of benker/alphabet.py *)
From Verif Require Import Base.

(** An alphabet is a python string; letters are its characters.
    [alphabet[r]] raises IndexError when out of range; [alphabet.index(c)] is the first
    position of [c], ValueError if absent. *)

Definition letters := list ascii.

Fixpoint index_of (c : ascii) (alphabet : letters) : option Z :=
  match alphabet with
  | [] => None
  | a :: rest => if Ascii.eqb c a then Some 0
                 else match index_of c rest with Some i => Some (i + 1) | None => None end
  end.

(** [divmod(a, b)], ZeroDivisionError when [b = 0] (python floors, like [Z.div] for b > 0). *)
Definition py_divmod (a b : Z) : result (Z * Z) :=
  if b =? 0 then Err EZeroDivisionError else Ok (a / b, a mod b).

(** alphabet.py:57-59, the [while q] loop; [acc] is the list [letters]. The fuel is the value
    of [q] on entry: [q] strictly decreases. *)
Fixpoint int_to_alphabet_loop (fuel : nat) (alphabet : letters) (q : Z) (acc : letters)
  : result letters :=
  if q =? 0 then Ok acc
  else match fuel with
       | O => Err EOutOfFuel
       | S fuel' =>
           qr <-? py_divmod (q - 1) (Z.of_nat (List.length alphabet)) ;;
           l <-? py_nth alphabet (snd qr) ;;
           int_to_alphabet_loop fuel' alphabet (fst qr) (l :: acc)
       end.

(** alphabet.py:15-60 int_to_alphabet *)
Definition int_to_alphabet (value : Z) (alphabet : letters) : result letters :=
  if value =? 0 then Ok []
  else if value <? 0 then Err EValueError
  else
    qr <-? py_divmod (value - 1) (Z.of_nat (List.length alphabet)) ;;
    l <-? py_nth alphabet (snd qr) ;;
    int_to_alphabet_loop (Z.to_nat value) alphabet (fst qr) [l].

(** alphabet.py:92-98, the loop of alphabet_to_int *)
Fixpoint alphabet_to_int_loop (ls : letters) (alphabet : letters) (value : Z) : result Z :=
  match ls with
  | [] => Ok value
  | letter :: ls' =>
      match index_of letter alphabet with
      | Some i => alphabet_to_int_loop ls' alphabet
                    (value * Z.of_nat (List.length alphabet) + (i + 1))
      | None => Err EValueError
      end
  end.

(** alphabet.py:63-100 alphabet_to_int *)
Definition alphabet_to_int (ls : letters) (alphabet : letters) : result Z :=
  alphabet_to_int_loop ls alphabet 0.

(** [string.ascii_uppercase], the default alphabet (alphabet.py:9-12). *)
Definition ascii_uppercase : letters :=
  list_ascii_of_string "ABCDEFGHIJKLMNOPQRSTUVWXYZ".
