(** * Common vocabulary of the model.

    Python exceptions are values of [exn]; a function which may raise returns a [result].
    A method which may both mutate [self] and raise is a [SM]: it maps the state before the
    call to the state after the call (also when it raises) and the outcome. *)
From Coq Require Export List ZArith Lia Bool String Ascii Permutation Sorted.
From Coq Require Export ZifyBool.
From Coq Require Import DecimalString.
Export ListNotations.
Open Scope Z_scope.
Open Scope list_scope.

(** ** Exceptions *)

Inductive exn : Type :=
| ETypeError | EValueError | EKeyError | EIndexError | EAttributeError
| EAssertionError | EZeroDivisionError | ENotImplementedError | ERecursionError | EStopIteration
| EUser (n : Z)      (* an exception raised by a user supplied function *)
| EOutOfFuel.        (* not a python exception: a fuelled loop of the model ran dry *)

Inductive result (A : Type) : Type :=
| Ok (a : A)
| Err (e : exn).
Arguments Ok {A} a.
Arguments Err {A} e.

Definition rbind {A B} (m : result A) (k : A -> result B) : result B :=
  match m with Ok a => k a | Err e => Err e end.

Notation "x <-? m ;; k" := (rbind m (fun x => k))
  (at level 61, m at next level, right associativity).

Definition is_ok {A} (m : result A) : bool :=
  match m with Ok _ => true | Err _ => false end.

Fixpoint rmap {A B} (f : A -> result B) (l : list A) : result (list B) :=
  match l with
  | [] => Ok []
  | a :: l' => b <-? f a ;; bs <-? rmap f l' ;; Ok (b :: bs)
  end.

(** ** State and exceptions *)

Definition SM (S A : Type) : Type := S -> S * result A.

Definition sret {S A} (a : A) : SM S A := fun s => (s, Ok a).
Definition sraise {S A} (e : exn) : SM S A := fun s => (s, Err e).
Definition sbind {S A B} (m : SM S A) (k : A -> SM S B) : SM S B :=
  fun s => match m s with
           | (s', Ok a) => k a s'
           | (s', Err e) => (s', Err e)
           end.
Definition sget {S} : SM S S := fun s => (s, Ok s).
Definition sput {S} (s : S) : SM S unit := fun _ => (s, Ok tt).
Definition slift {S A} (r : result A) : SM S A := fun s => (s, r).

Notation "x <- m ;; k" := (sbind m (fun x => k))
  (at level 61, m at next level, right associativity).
Notation "m ;;; k" := (sbind m (fun _ => k))
  (at level 61, right associativity).

Fixpoint siter {S A} (f : A -> SM S unit) (l : list A) : SM S unit :=
  match l with
  | [] => sret tt
  | a :: l' => f a ;;; siter f l'
  end.

(** ** Python [range(a, b)] *)

Definition zrange (a b : Z) : list Z :=
  map (fun i => a + Z.of_nat i) (seq 0 (Z.to_nat (b - a))).

(** ** Dictionaries in insertion order (CPython >= 3.7) *)

Definition dict (V : Type) : Type := list (string * V).

Fixpoint dget {V} (d : dict V) (k : string) : option V :=
  match d with
  | [] => None
  | (k', v) :: d' => if String.eqb k k' then Some v else dget d' k
  end.

Definition dmem {V} (d : dict V) (k : string) : bool :=
  match dget d k with Some _ => true | None => false end.

Fixpoint dset {V} (d : dict V) (k : string) (v : V) : dict V :=
  match d with
  | [] => [(k, v)]
  | (k', v') :: d' => if String.eqb k k' then (k', v) :: d' else (k', v') :: dset d' k v
  end.

Definition dupdate {V} (d e : dict V) : dict V :=
  fold_left (fun acc kv => dset acc (fst kv) (snd kv)) e d.

Fixpoint ddel {V} (d : dict V) (k : string) : dict V :=
  match d with
  | [] => []
  | (k', v') :: d' => if String.eqb k k' then ddel d' k else (k', v') :: ddel d' k
  end.

Definition dkeys {V} (d : dict V) : list string := map fst d.

(** ** Python lists: indexing with negative indices *)

Definition py_index {A} (l : list A) (i : Z) : option nat :=
  let n := Z.of_nat (List.length l) in
  if (0 <=? i) && (i <? n) then Some (Z.to_nat i)
  else if (i <? 0) && (- n <=? i) then Some (Z.to_nat (n + i))
  else None.

Definition py_nth {A} (l : list A) (i : Z) : result A :=
  match py_index l i with
  | None => Err EIndexError
  | Some n => match nth_error l n with Some a => Ok a | None => Err EIndexError end
  end.

Fixpoint upd_nth {A} (l : list A) (n : nat) (f : A -> A) : list A :=
  match l, n with
  | [], _ => []
  | a :: l', O => f a :: l'
  | a :: l', S n' => a :: upd_nth l' n' f
  end.

Definition py_upd {A} (l : list A) (i : Z) (f : A -> A) : result (list A) :=
  match py_index l i with
  | None => Err EIndexError
  | Some n => Ok (upd_nth l n f)
  end.

(** [list.insert(i, x)] for [0 <= i <= len] *)
Definition insert_at {A} (l : list A) (n : nat) (a : A) : list A :=
  firstn n l ++ a :: skipn n l.

(** ** [str(int)] *)
Definition py_str_int (z : Z) : string := NilZero.string_of_int (Z.to_int z).
