(** * Specification: the effect of a conversion on the files *)
From Verif Require Import Base M_Xml M_Convert M_Ooxml M_Nested M_NestedFormex M_Files.
Open Scope string_scope.
Open Scope list_scope.

(** The options of the Word parser with the style sheet [sheet], whatever sheet was there before *)
Definition options_with (ox : ooxml_opts) (sheet : option xnode) : ooxml_opts :=
  {| ox_styles := sheet; ox_float := ox_float ox; ox_repr := ox_repr ox; ox_fixed := ox_fixed ox; ox_page := ox_page ox; ox_limit := ox_limit ox |}.
(** The document made in memory from the document [doc], with the style sheet [sheet] (see C80) *)
Definition converted (c : converter) (s : settings) (sheet : option xnode) (doc : xnode) : result xnode :=
  match c with
  | Cals2Formex => nested_cals2formex (s_kw s) doc
  | Formex2Cals => nested_formex2cals (s_kw s) doc
  | Ooxml2Cals => nested_ooxml2cals (s_kw s) (options_with (s_ox s) sheet) doc
  | Ooxml2Formex => nested_ooxml2formex (s_kw s) (options_with (s_ox s) sheet) doc
  end.

Section Files.
  Variable lib : library.

  (** The file [path] has the document [tree] *)
  Definition has_document (fs : files) (path : string) (tree : l_around lib * xnode) : Prop :=
    exists bytes, fs path = Some bytes /\ l_read lib bytes = Ok tree.

  (** The path of a style sheet, which only the Word parser has; an empty path is no path *)
  Definition sheet_path (c : converter) (s : settings) : option string :=
    match c with
    | Ooxml2Cals | Ooxml2Formex => match s_styles_path s with Some "" => None | p => p end
    | Cals2Formex | Formex2Cals => None
    end.
  Definition has_sheet (fs : files) (c : converter) (s : settings) (sheet : option xnode) : Prop :=
    match sheet_path c s with
    | None => sheet = None
    | Some path => exists around root, has_document fs path (around, root) /\ sheet = Some root
    end.

  (** What is to be written for the file [src] *)
  Definition to_write (fs : files) (c : converter) (s : settings) (src out : string) : Prop :=
    exists around doc sheet doc',
      has_document fs src (around, doc) /\ has_sheet fs c s sheet /\ converted c s sheet doc = Ok doc' /\
      l_write lib (s_encoding s) (around, doc') = Ok out.

  (** No file is changed but [dst], which has the content [out]. *)
  Definition only_written (fs fs' : files) (dst out : string) : Prop :=
    fs' dst = Some out /\ forall p, p <> dst -> fs' p = fs p.

  (** No conversion of the list reads or writes what another one writes. *)
  Definition independent (c : converter) (s : settings) (jobs : list (string * string)) : Prop :=
    NoDup (map snd jobs) /\
    (forall j j', In j jobs -> In j' jobs -> fst j = snd j' -> j = j') /\
    (forall j path, In j jobs -> sheet_path c s = Some path -> path <> snd j).
End Files.
