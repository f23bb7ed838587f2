(** * Specification vocabulary for the alphabetic numbering *)
From Verif Require Import Base M_Alphabet.

(** [c] is the letter number [i] (from 0) of the alphabet. *)
Definition letter_at (alphabet : letters) (c : ascii) (i : nat) : Prop :=
  nth_error alphabet i = Some c.

(** Words over an alphabet *)
Definition word_over (alphabet : letters) (w : letters) : Prop :=
  Forall (fun c => In c alphabet) w.

(** Length-then-dictionary order of words *)
Definition shortlex (alphabet : letters) (w1 w2 : letters) : Prop :=
  (List.length w1 < List.length w2)%nat \/
  (List.length w1 = List.length w2 /\
   exists p c1 r1 c2 r2 i j,
     w1 = p ++ c1 :: r1 /\ w2 = p ++ c2 :: r2 /\
     letter_at alphabet c1 i /\ letter_at alphabet c2 j /\ (i < j)%nat).
