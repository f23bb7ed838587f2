(** * Specification vocabulary: ownership of styles *)
From Verif Require Import Base M_Geometry M_Xml M_Cell M_Grid M_Heap.

Inductive hreachable : heap -> Prop :=
| hreach_0 : hreachable heap0
| hreach_step h o : hreachable h -> hreachable (fst (hstep o h)).

(** What is read from an object: the styles it shows *)
Definition shows (h : heap) (i : nat) (d : styles) : Prop :=
  (i < List.length (h_objs h))%nat /\ d = dict_at h (o_styles (obj_at h i)).

(** The cell as a value *)
Definition value_of (h : heap) (i : nat) : cell :=
  let o := obj_at h i in MkCell (o_content o) (dict_at h (o_styles o)) (o_nature o) (o_box o).
Definition grid_value (h : heap) (g : nat) : grid := map (value_of h) (grid_at h g).

Definition exists_obj (h : heap) (i : nat) : Prop := (i < List.length (h_objs h))%nat.
Definition exists_grid (h : heap) (g : nat) : Prop := (g < List.length (h_grids h))%nat.

(** Nothing is shared: two objects have two dictionaries, which are not dictionaries made by the
    caller; two grids (and two places of one grid) hold different cell objects, none of which was
    made by the caller. *)
Record separate (h : heap) : Prop := {
  sep_styles : forall i j, exists_obj h i -> exists_obj h j -> i <> j ->
    o_styles (obj_at h i) <> o_styles (obj_at h j);
  sep_own : forall i, exists_obj h i -> ~ In (o_styles (obj_at h i)) (h_own h);
  sep_cells : forall g g' i, exists_grid h g -> exists_grid h g' -> In i (grid_at h g) -> In i (grid_at h g') -> g = g';
  sep_nodup : forall g, NoDup (grid_at h g);
  sep_made : forall g i, exists_grid h g -> In i (grid_at h g) -> ~ In i (h_made h)
}.

(** The objects an operation is allowed to change: the one whose attribute is set, or the one whose
    styles dictionary is changed in place *)
Definition targets (o : hop) (h : heap) (i : nat) : Prop :=
  match o with
  | HUpdate a _ => o_styles (obj_at h i) = a
  | HSetStyles j _ | HSetContent j _ | HSetNature j _ => i = j
  | _ => False
  end.
(** The grid an operation is allowed to change *)
Definition targets_grid (o : hop) (g : nat) : Prop :=
  match o with
  | HSet g' _ _ | HDel g' _ | HMerge g' _ _ _ | HExpand g' _ _ _ _ => g = g'
  | _ => False
  end.

(** The same operation on values: what the model of Grid does *)
Definition on_values (o : hop) (h : heap) : option (gop) :=
  match o with
  | HSet _ v i => Some (GSet v (value_of h i))
  | HDel _ v => Some (GDel v)
  | HMerge _ s e app => Some (GMerge s e app)
  | HExpand _ v w h' app => Some (GExpand v w h' app)
  | _ => None
  end.

(** The dictionary an operation is allowed to change *)
Definition updates (o : hop) (a : nat) : Prop :=
  match o with HUpdate b _ => a = b | _ => False end.

(** No operation of the history is directed at object [i] (resp. at dictionary [a]) *)
Fixpoint untouched (ops : list hop) (h : heap) (i : nat) : Prop :=
  match ops with
  | [] => True
  | o :: ops' => ~ targets o h i /\ untouched ops' (fst (hstep o h)) i
  end.
