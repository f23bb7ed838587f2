(** * Model of the name spaces of the files which are written

    builders/cals.py:138-155, builders/formex.py:145-165, and what lxml writes of the names of a tree
    (parsers/base_parser.py:81, [tree.write]).

    Simplified: of a file only the names and the values of the attributes are modelled, not its characters. *)
From Verif Require Import Base M_Geometry M_Xml M_Str M_Cals M_Formex M_Convert.
Open Scope string_scope.
Open Scope list_scope.

(** Declarations [xmlns:prefix="uri"]; without prefix the default name space *)
Definition decls := list (option string * string).

(** schemas/__init__.py CALS_PREFIX *)
Definition CALS_PREFIX : string := "cals".
(** builders/cals.py:138-155 _register_namespace (called once, by [__init__]), ns_map *)
Definition cals_ns_map (kw : kwargs) : decls :=
  match or_nothing (kw_or (kw_cals_ns kw) None) with
  | Some ns => [(or_nothing (kw_prefix kw), ns)]
  | None => []
  end.
(** builders/formex.py:145-158: cals_ns, cals_prefix, ns_map.  The prefix is "cals" if it is not given; [None] for
    [kw_prefix]: not given (the option [cals_prefix=None] is the same as the empty one) *)
Definition formex_ns_map (kw : kwargs) : decls :=
  match kw_use_cals kw, or_nothing (kw_or (kw_cals_ns kw) (Some CALS_NS)) with
  | true, Some ns => [(or_nothing (Some (kw_or (kw_prefix kw) CALS_PREFIX)), ns)]
  | _, _ => []
  end.

(** The name space of a name of lxml, [{uri}name] *)
Fixpoint before_brace (s : string) : string :=
  match s with
  | EmptyString => EmptyString
  | String c s' => if Ascii.eqb c "}"%char then EmptyString else String c (before_brace s')
  end.
Definition uri_of (tag : string) : option string :=
  match tag with String c s => if Ascii.eqb c "{"%char then Some (before_brace s) else None | EmptyString => None end.

(** A written element: its declarations, its name and its attributes, with their prefixes *)
Inductive raw : Type :=
| RElem (ds : decls) (tag : option string * string) (attrs : list ((option string * string) * string)) (children : list raw)
| ROther.

Definition same_prefix (p q : option string) : bool :=
  match p, q with
  | None, None => true
  | Some a, Some b => String.eqb a b
  | _, _ => false
  end.
(** The declaration in force for a prefix: the first one, from the element upwards *)
Fixpoint scope (env : decls) (p : option string) : option string :=
  match env with
  | [] => None
  | (q, u) :: env' => if same_prefix p q then Some u else scope env' p
  end.

Section Write.
  (** The declarations given to lxml by the builder ([nsmap=...]) *)
  Variable m : decls.
  (** lxml declares them, and adds prefixes when it needs them *)
  Definition may_declare (d : option string * string) : Prop := fst d <> None \/ In d m.
  (** lxml writes a name without name space without prefix, whatever the default name space is, and a name with
      a name space by a declaration in force for it; for an attribute this needs a prefix *)
  Definition written_tag (env : decls) (tag : string) (w : option string * string) : Prop :=
    snd w = localname tag /\
    match uri_of tag with None => fst w = None | Some u => scope env (fst w) = Some u /\ u <> "" end.
  Definition written_attr (env : decls) (a : string * string) (w : (option string * string) * string) : Prop :=
    snd w = snd a /\ snd (fst w) = localname (fst a) /\
    match uri_of (fst a) with
    | None => fst (fst w) = None
    | Some u => fst (fst w) <> None /\ scope env (fst (fst w)) = Some u
    end.
  (** What lxml may write of a tree below the declarations [env].  Simplified: the nodes of the source have no
      default name space of their own. *)
  Inductive writes (env : decls) : xnode -> raw -> Prop :=
  | WElem tag attrs text children tail ds wt wa wc :
      Forall may_declare ds -> written_tag (ds ++ env) tag wt -> Forall2 (written_attr (ds ++ env)) attrs wa ->
      Forall2 (writes (ds ++ env)) children wc ->
      writes env (XElem tag attrs text children tail) (RElem ds wt wa wc)
  | WPI target text tail : writes env (XPI target text tail) ROther
  | WComment text tail : writes env (XComment text tail) ROther.
  (** The element of the table has the declarations of the builder (cals.py:250, formex.py:242) *)
  Definition writes_table (env : decls) (e : xnode) (r : raw) : Prop :=
    writes env e r /\ match r with RElem ds _ _ _ => incl m ds | ROther => True end.
End Write.
