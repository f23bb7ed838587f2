(** * Model of the converters: a parser and a builder with the same options

    benker/converters/*.py, benker/parsers/base_parser.py.  Here for one table; the tables of a
    document are in M_Transform.v. *)
From Coq Require Import QArith.
From Verif Require Import Base M_Geometry M_Xml M_Cell M_Grid M_Table M_Units M_Cals M_CalsParser M_Formex M_FormexParser M_FormexRead M_Ooxml.
Open Scope string_scope.
Open Scope list_scope.

(** The options given to a converter; [None] for [kw_cals_ns] and [kw_unit]: not given.  [kw_fmt] is
    the writing of the numbers (see M_Cals.v). *)
Record kwargs := MkKwargs {
  kw_cals_ns : option (option string);
  kw_prefix : option string;
  kw_unit : option string;
  kw_in_tgroup : bool;
  kw_sorting : list string;
  kw_use_cals : bool;
  kw_titles : bool;
  kw_formex_ns : option string;
  kw_embed : bool;
  kw_fmt : Q -> string
}.

(** [v or None] *)
Definition or_nothing (v : option string) : option string :=
  match v with Some s => if String.eqb s "" then None else Some s | None => None end.
Definition kw_or {A : Type} (v : option A) (default : A) : A := match v with Some a => a | None => default end.
(** schemas/__init__.py CALS_NS *)
Definition CALS_NS : string := "https://lib.benker.com/schemas/cals.xsd".

(** parsers/cals/__init__.py:78-106 CalsParser.__init__, get_cals_qname; a name with an empty name
    space is a name without name space *)
Definition cals_parser (kw : kwargs) : pcals_opts :=
  MkPCalsOpts (or_nothing (kw_or (kw_cals_ns kw) None)) (kw_or (kw_unit kw) "mm") (kw_fmt kw).
(** parsers/formex.py:60-92 FormexParser.__init__, get_formex_qname, get_cals_qname *)
Definition formex_parser (kw : kwargs) : pfmx_opts :=
  MkPFmxOpts (or_nothing (kw_formex_ns kw)) (or_nothing (kw_or (kw_cals_ns kw) None)) (kw_embed kw).
(** builders/cals.py:83-153 CalsBuilder.__init__, _register_namespace: a prefix needs a name space *)
Definition cals_builder (kw : kwargs) : result cals_opts :=
  let ns := or_nothing (kw_or (kw_cals_ns kw) None) in
  match or_nothing (kw_prefix kw), ns with
  | Some _, None => Err EValueError
  | _, _ =>
      sorting <-? cals_sorting (kw_sorting kw) ;;
      Ok (MkCalsOpts ns (kw_or (kw_unit kw) "mm") (kw_in_tgroup kw) sorting (kw_fmt kw))
  end.
(** builders/formex.py:98-152 FormexBuilder.__init__ *)
Definition formex_builder (kw : kwargs) : fmx_opts :=
  MkFmxOpts (MkCalsOpts (or_nothing (kw_or (kw_cals_ns kw) (Some CALS_NS))) (kw_or (kw_unit kw) "mm") false default_sorting (kw_fmt kw))
    (kw_use_cals kw) (kw_titles kw).

(** converters/base_converter.py:38-40, and one turn of the loops of transform_tables: the element
    put in place of the table [e].  [k] is the number of the table (formex.py:143, 223). *)
Definition cals2formex (kw : kwargs) (k : Z) (e : xnode) : result xnode :=
  t <-? parse_table (cals_parser kw) e ;; generate_tbl (formex_builder kw) k t.
Definition formex2cals (kw : kwargs) (parent : option xnode) (blks : Z) (before : list xnode) (e : xnode) : result xnode :=
  o <-? cals_builder kw ;;
  t <-? parse_formex (formex_parser kw) parent blks before e ;; generate_table_tree o t.
(** [ox] has the style sheet and the reading of numbers (see M_Ooxml.v); [sect] is the section after
    the table. *)
Definition ooxml2cals (kw : kwargs) (ox : ooxml_opts) (sect : option xnode) (e : xnode) : result xnode :=
  o <-? cals_builder kw ;;
  t <-? ox_parse_table ox sect e ;; generate_table_tree o t.
Definition ooxml2formex (kw : kwargs) (ox : ooxml_opts) (sect : option xnode) (k : Z) (e : xnode) : result xnode :=
  t <-? ox_parse_table ox sect e ;; generate_tbl (formex_builder kw) k t.
