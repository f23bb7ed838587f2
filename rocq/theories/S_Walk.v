(** * Specification: the events of a walk over a tree *)
From Coq Require Import Sorted.
From Verif Require Import Base M_Xml M_Walk.
Open Scope string_scope.
Open Scope list_scope.

(** A node is known by its place: the numbers of the children which lead to it. *)
Definition place := list nat.
Fixpoint node_at (n : xnode) (p : place) : option xnode :=
  match p with
  | [] => Some n
  | i :: p' => match nth_error (x_children n) i with Some c => node_at c p' | None => None end
  end.
(** The nodes above a place, from the root *)
Fixpoint nodes_above (n : xnode) (p : place) : list xnode :=
  match p with
  | [] => []
  | i :: p' => n :: match nth_error (x_children n) i with Some c => nodes_above c p' | None => [] end
  end.

(** The order of the events: a node starts before what it holds and ends after it; the nodes come from the first to
    the last. *)
Inductive sooner : string * place -> string * place -> Prop :=
| sooner_own p : sooner ("start", p) ("end", p)
| sooner_above p i q k : sooner ("start", p) (k, p ++ i :: q)
| sooner_inside p i q k : sooner (k, p ++ i :: q) ("end", p)
| sooner_left p i j q r k k' : (i < j)%nat -> sooner (k, p ++ i :: q) (k', p ++ j :: r).

(** The nodes which are asked for *)
Definition asked (tag : tag_arg) (n : xnode) : Prop :=
  match tag with
  | TagNone => True
  | TagName s => s = "*" \/ x_tag n = Some s
  | TagNames l => exists s, In s l /\ x_tag n = Some s
  end.
(** One event for each place of a node which is kept and for each kind which is asked for, in order *)
Definition all_events (kinds : list string) (keep : xnode -> Prop) (n : xnode) (ps : list (string * place)) : Prop :=
  StronglySorted sooner ps /\
  forall k p, In (k, p) ps <-> In k kinds /\ (k = "start" \/ k = "end") /\ exists d, node_at n p = Some d /\ keep d.
Definition walks (kinds : list string) (keep : xnode -> Prop) (n : xnode) (l : list (string * xnode)) : Prop :=
  exists ps, all_events kinds keep n ps /\ Forall2 (fun ev kp => fst ev = fst kp /\ node_at n (snd kp) = Some (snd ev)) l ps.

(** The parent of the node at a place, and the nodes before it in its parent; those of the root are given. *)
Definition parent_at (parent : option xnode) (n : xnode) (p : place) : option xnode :=
  match p with [] => parent | _ => node_at n (removelast p) end.
Definition before_at (before : list xnode) (n : xnode) (p : place) : list xnode :=
  match p with
  | [] => before
  | _ => match node_at n (removelast p) with Some d => firstn (last p 0%nat) (x_children d) | None => [] end
  end.
