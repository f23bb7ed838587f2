(** * Model of the replacement of the tables of a document (transform_tables)

    benker/parsers/cals/__init__.py:108-120.  The loop of benker/parsers/ooxml and of
    benker/parsers/formex.py are of the same form; here the recognition of a table, the parser and
    the builder are parameters.

    The nodes found by [xpath] are designated by their path in the document (the indices of the
    children from the root); a replacement is one for one, at the same index, so that the paths of
    the nodes which are not inside the replaced node keep designating the same nodes.  The tables
    which are inside another table are moved by the builder together with the content of the
    cells: the model is faithful for the documents in which no table is inside another. *)
From Verif Require Import Base M_Xml M_Cals M_CalsParser.
Open Scope list_scope.

Definition path := list nat.

(** [tree.xpath("//table")]: the paths, in document order, of the nodes satisfying [p] (the root
    included) *)
Fixpoint find_all (p : xnode -> bool) (n : xnode) : list path :=
  (if p n then [[]] else []) ++
  match n with
  | XElem _ _ _ children _ =>
      (fix go (i : nat) (l : list xnode) : list path :=
         match l with
         | [] => []
         | c :: l' => map (cons i) (find_all p c) ++ go (S i) l'
         end) 0%nat children
  | _ => []
  end.

Fixpoint node_at (n : xnode) (p : path) : option xnode :=
  match p with
  | [] => Some n
  | i :: p' => match nth_error (x_children n) i with
               | Some c => node_at c p'
               | None => None
               end
  end.

(** [list.insert(index, new)] and [list.remove(old)], [old] being at [index] *)
Fixpoint replace_nth {A : Type} (i : nat) (f : A -> A) (l : list A) : list A :=
  match l, i with
  | [], _ => []
  | x :: l', O => f x :: l'
  | x :: l', S i' => x :: replace_nth i' f l'
  end.

Fixpoint replace_at (n : xnode) (p : path) (new : xnode) : xnode :=
  match p with
  | [] => new
  | i :: p' =>
      match n with
      | XElem tag attrs text children tail =>
          XElem tag attrs text (replace_nth i (fun c => replace_at c p' new) children) tail
      | _ => n
      end
  end.

Section Transform.
  (** the nodes selected, and [self.builder.generate_table_tree(self.parse_table(node))] *)
  Variable is_table : xnode -> bool.
  Variable convert : xnode -> result xnode.

  (** parsers/cals/__init__.py:114-120, one turn of the loop: [getparent()] is [None] for the root
      and [None.index] raises; the tail of the removed node goes away with it, hence the copy *)
  Definition transform_one (doc : xnode) (p : path) : result xnode :=
    match node_at doc p with
    | None => Err EValueError      (* no such node: does not happen when no table is in a table *)
    | Some node =>
        table_elem <-? convert node ;;
        match p with
        | [] => Err EAttributeError
        | _ => Ok (replace_at doc p (x_set_tail table_elem (x_tail node)))
        end
    end.

  Fixpoint transform_all (doc : xnode) (ps : list path) : result xnode :=
    match ps with
    | [] => Ok doc
    | p :: ps' => doc' <-? transform_one doc p ;; transform_all doc' ps'
    end.

  (** parsers/cals/__init__.py:108-120 transform_tables *)
  Definition transform_tables (doc : xnode) : result xnode :=
    transform_all doc (find_all is_table doc).
End Transform.

(** parsers/cals/__init__.py:108-120 with a [CalsBuilder]: the CALS tables of a document are parsed
    and generated again *)
Definition cals_is_table (p : pcals_opts) (n : xnode) : bool := x_has_tag n (pcals p "table").
Definition cals_convert (p : pcals_opts) (o : cals_opts) (n : xnode) : result xnode :=
  t <-? parse_table p n ;; generate_table_tree o t.
Definition cals_transform (p : pcals_opts) (o : cals_opts) (doc : xnode) : result xnode :=
  transform_tables (cals_is_table p) (cals_convert p o) doc.
