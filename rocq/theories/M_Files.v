(** * Model of the conversion of files

    converters/base_converter.py:20-40 convert_file, parsers/base_parser.py:64-83 parse_file, and the loops of
    transform_tables with the counter of the builder (builders/formex.py:143, 223), which is not reset from one
    file to the next when a parser is used for several files.

    The XML library is a parameter ([library]): reading gives the root element and what is around it (the declaration of
    the type of document, comments), writing takes them back.

    Simplified: a file system is a map from the paths to the contents; two paths are the same file when they are
    equal; nothing else changes the files during a conversion; a file which can be opened for writing is written completely.
    The other attributes of the parsers and of the builders are set again for each table (parsers/base_parser.py:25-32
    _State.reset, builders/cals.py:169-173 and builders/formex.py:179-183 setup_table) or for each document
    (parsers/ooxml/__init__.py:795-796). *)
From Verif Require Import Base M_Xml M_Geometry M_Cell M_Grid M_Table M_Cals M_CalsParser M_Formex M_FormexParser M_FormexRead M_FormexFinal M_FormexFinish M_Ooxml M_Transform M_Convert M_ConvertDoc M_Nested M_NestedFormex.
Open Scope string_scope.
Open Scope list_scope.

(** lxml, and the system: [l_io] is the error of a file which cannot be opened *)
Record library := MkLibrary {
  l_around : Type;
  l_read : string -> result (l_around * xnode);
  l_write : string -> l_around * xnode -> result string;
  l_writable : string -> bool;
  l_io : exn
}.
Definition files := string -> option string.
(** [etree.parse(path)] *)
Definition read_tree (lib : library) (fs : files) (path : string) : result (l_around lib * xnode) :=
  match fs path with Some bytes => l_read lib bytes | None => Err (l_io lib) end.
Definition put_file (fs : files) (path bytes : string) : files := fun p => if String.eqb p path then Some bytes else fs p.
(** [tree.write(path, encoding=...)] *)
Definition write_tree (lib : library) (fs : files) (encoding path : string) (tree : l_around lib * xnode) : files * result unit :=
  match l_write lib encoding tree with
  | Err x => (fs, Err x)
  | Ok bytes => if l_writable lib path then (put_file fs path bytes, Ok tt) else (fs, Err (l_io lib))
  end.

(** The loop of M_Nested.v, with the counter of the builder *)
Section Counted.
  Variable name : string.
  Variable parse : list xnode -> xnode -> result table.
  Variable build : Z -> table -> result xnode.

  (** [parse_table], then [generate_table_tree] which increments the counter first *)
  Definition counted_table (after : list xnode) (node : xnode) (no_seq : Z) : Z * result xnode :=
    match parse after node with
    | Err x => (no_seq, Err x)
    | Ok t => ((no_seq + 1)%Z, build (no_seq + 1) t)
    end.
  Definition counted_one (src doc : xnode) (k : nat) (no_seq : Z) : Z * result xnode :=
    match find_all (has_mark name k) doc with
    | p :: _ =>
        match node_at doc p with
        | None => (no_seq, Err EValueError)
        | Some node =>
            let (no_seq, r) := counted_table (map (unmark name) (after_at doc p)) (drop_mark node) no_seq in
            (no_seq, table_elem <-? r ;; match p with [] => Err EAttributeError | _ => Ok (put_mark name k table_elem doc) end)
        end
    | [] =>
        match find (has_mark name k) (tree_nodes src) with
        | None => (no_seq, Err EValueError)
        | Some node => let (no_seq, r) := counted_table [] (drop_mark node) no_seq in (no_seq, _ <-? r ;; Ok doc)
        end
    end.
  Fixpoint counted_all (src doc : xnode) (ks : list nat) (no_seq : Z) : Z * result xnode :=
    match ks with
    | [] => (no_seq, Ok doc)
    | k :: ks' =>
        let (no_seq, r) := counted_one src doc k no_seq in
        match r with Err x => (no_seq, Err x) | Ok doc' => counted_all src doc' ks' no_seq end
    end.
  Definition counted_tables (doc : xnode) (no_seq : Z) : Z * result xnode :=
    let m := mark_from name 1 doc in
    counted_all (snd m) (snd m) (seq 1 (fst m - 1)) no_seq.
End Counted.

(** converters/*.py *)
Inductive converter := Cals2Formex | Formex2Cals | Ooxml2Cals | Ooxml2Formex.
(** The options; [s_ox] has the reading of the numbers, its style sheet is not used *)
Record settings := MkSettings {
  s_kw : kwargs;
  s_ox : ooxml_opts;
  s_styles_path : option string;
  s_encoding : string
}.
Definition sheet_given (ox : ooxml_opts) (sheet : option xnode) : ooxml_opts :=
  MkOoxmlOpts sheet (ox_float ox) (ox_repr ox) (ox_fixed ox) (ox_page ox) (ox_limit ox).

Section Converter.
  Variable lib : library.
  Variable c : converter.
  Variable s : settings.
  Let kw := s_kw s.

  (** The builder and the parser are made: base_converter.py:38-39; only the CALS builder refuses some options *)
  Definition make_parser : result unit :=
    match c with
    | Formex2Cals | Ooxml2Cals => _ <-? cals_builder kw ;; Ok tt
    | Cals2Formex | Ooxml2Formex => Ok tt
    end.
  (** parsers/ooxml/__init__.py:795 *)
  Definition style_sheet (fs : files) : result (option xnode) :=
    match or_nothing (s_styles_path s) with
    | None => Ok None
    | Some path => tree <-? read_tree lib fs path ;; Ok (Some (snd tree))
    end.
  (** transform_tables: parsers/cals/__init__.py:108-120, parsers/formex.py:94-106, parsers/ooxml/__init__.py:794-805 *)
  Definition transform (fs : files) (doc : xnode) (no_seq : Z) : Z * result xnode :=
    match c with
    | Cals2Formex => counted_tables (pcals (cals_parser kw) "table") (fun _ => parse_table (cals_parser kw)) (generate_tbl (formex_builder kw)) doc no_seq
    | Formex2Cals => (no_seq, fnested_tables (formex_parser kw) (formex2cals kw) doc)
    | Ooxml2Cals =>
        (no_seq,
         sheet <-? style_sheet fs ;;
         nested_tables (wq "tbl") (fun after _ => ooxml2cals kw (with_styles (sheet_given (s_ox s) sheet) doc) (sect_after after)) doc)
    | Ooxml2Formex =>
        match style_sheet fs with
        | Err x => (no_seq, Err x)
        | Ok sheet => counted_tables (wq "tbl") (fun after => ox_parse_table (with_styles (sheet_given (s_ox s) sheet) doc) (sect_after after)) (generate_tbl (formex_builder kw)) doc no_seq
        end
    end.
  (** builders/base_builder.py:46-53, builders/formex.py:639-659 *)
  Definition finalize (doc : xnode) : result xnode :=
    match c with
    | Formex2Cals | Ooxml2Cals => Ok doc
    | Cals2Formex | Ooxml2Formex => finalize_tree (co_ns (fo_cals (formex_builder kw))) doc
    end.
  (** base_parser.py:80-83 parse_file; the counter of the builder is the state of the parser *)
  Definition parse_file (src dst : string) (no_seq : Z) (fs : files) : Z * (files * result unit) :=
    match read_tree lib fs src with
    | Err x => (no_seq, (fs, Err x))
    | Ok (around, doc) =>
        let (no_seq, r) := transform fs doc no_seq in
        (no_seq, match (doc' <-? r ;; finalize doc') with
                 | Err x => (fs, Err x)
                 | Ok doc' => write_tree lib fs (s_encoding s) dst (around, doc')
                 end)
    end.
  (** base_converter.py:38-40 *)
  Definition convert_file (src dst : string) (fs : files) : files * result unit :=
    match make_parser with
    | Err x => (fs, Err x)
    | Ok _ => snd (parse_file src dst 0%Z fs)
    end.

  (** A program which converts files one after the other; the errors are caught and kept.  With one parser... *)
  Fixpoint parse_files (jobs : list (string * string)) (no_seq : Z) (fs : files) : files * list (result unit) :=
    match jobs with
    | [] => (fs, [])
    | (src, dst) :: jobs' =>
        let (no_seq, r) := parse_file src dst no_seq fs in
        let (fs', rs) := parse_files jobs' no_seq (fst r) in
        (fs', snd r :: rs)
    end.
  (** ...and with a converter, which makes a parser each time *)
  Fixpoint convert_files (jobs : list (string * string)) (fs : files) : files * list (result unit) :=
    match jobs with
    | [] => (fs, [])
    | (src, dst) :: jobs' =>
        let r := convert_file src dst fs in
        let (fs', rs) := convert_files jobs' (fst r) in
        (fs', snd r :: rs)
    end.
End Converter.
