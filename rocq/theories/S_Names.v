(** * Specification: the names which are read in a file (Namespaces in XML 1.0) *)
From Verif Require Import Base M_Xml M_Str M_ConvertDoc M_Names.
Open Scope string_scope.
Open Scope list_scope.

Definition ename := (option string * string)%type.
Inductive ntree : Type := NTree (name : ename) (attrs : list (ename * string)) (children : list ntree) | NOther.

Fixpoint all_some {A} (l : list (option A)) : option (list A) :=
  match l with
  | [] => Some []
  | Some a :: l' => option_map (cons a) (all_some l')
  | None :: _ => None
  end.
(** A name without prefix is in the default name space if there is one; a prefix must be declared. *)
Definition read_tag (env : decls) (w : option string * string) : option ename :=
  match fst w with
  | None => Some (match scope env None with Some u => if String.eqb u "" then None else Some u | None => None end, snd w)
  | Some p => option_map (fun u => (Some u, snd w)) (scope env (Some p))
  end.
(** The default name space is not for attributes. *)
Definition read_attr (env : decls) (w : (option string * string) * string) : option (ename * string) :=
  match fst (fst w) with
  | None => Some ((None, snd (fst w)), snd w)
  | Some p => option_map (fun u => ((Some u, snd (fst w)), snd w)) (scope env (Some p))
  end.
Fixpoint read_names (env : decls) (r : raw) : option ntree :=
  match r with
  | ROther => Some NOther
  | RElem ds wt wa wc =>
      match read_tag (ds ++ env) wt, all_some (map (read_attr (ds ++ env)) wa), all_some (map (read_names (ds ++ env)) wc) with
      | Some t, Some a, Some c => Some (NTree t a c)
      | _, _, _ => None
      end
  end.

(** The names of a tree of lxml *)
Definition ename_of (s : string) : ename := (uri_of s, localname s).
Fixpoint names_of (n : xnode) : ntree :=
  match n with
  | XElem tag attrs _ children _ => NTree (ename_of tag) (map (fun a => (ename_of (fst a), snd a)) attrs) (map names_of children)
  | _ => NOther
  end.

(** Every element of a tree is in a name space. *)
Definition spaced (n : xnode) : Prop := forall x tag, In x (tree_nodes n) -> x_tag x = Some tag -> uri_of tag <> None.
