(** * Specification vocabulary for the borders of Word tables and the inheritance of styles *)
From Coq Require Import QArith.
From Verif Require Import Base M_Geometry M_Xml M_Cell M_Grid M_Table M_Ooxml S_Grid S_Table S_Int S_Cell S_Ooxml.
Open Scope Z_scope.
Open Scope string_scope.
Open Scope list_scope.

(** The first element, in document order, reached from [n] by [path] *)
Fixpoint element_at (path : list string) (n e : xnode) : Prop :=
  match path with
  | [] => e = n
  | p :: path' =>
      exists pre c post, x_children n = pre ++ c :: post /\ is_word p c /\ element_at path' c e /\
        forall d, In d pre -> is_word p d -> ~ exists_at path' d
  end.

(** ** One border *)

Definition named (names : list string) (c : xnode) : Prop := exists name, In name names /\ is_word name c.
(** The first value of the attribute [a] of the children of [b] having one of the names *)
Definition first_of (names : list string) (a : string) (b : xnode) (v : string) : Prop :=
  exists pre c post, x_children b = pre ++ c :: post /\ named names c /\ dget (x_attrs c) (word a) = Some v /\
    forall d, In d pre -> named names d -> dget (x_attrs d) (word a) = None.
(** The value of an attribute which is given and not empty *)
Definition given (names : list string) (a : string) (b : xnode) (v : string) : Prop := first_of names a b v /\ v <> "".

(** The name of a border style: the one of the table of styles, or the name of Word after "w-" *)
Definition border_name (v x : string) : Prop :=
  (v = "nil" /\ x = "none") \/
  (v <> "nil" /\ (In (v, x) BORDER_STYLES \/ ((forall y, ~ In (v, y) BORDER_STYLES) /\ x = "w-" ++ v)))%string.
(** The same name in lower case, the words separated by hyphens *)
Fixpoint hyphens (s : string) : string :=
  match s with
  | EmptyString => ""
  | String c s' =>
      let n := Ascii.nat_of_ascii c in
      if Nat.leb 65 n && Nat.leb n 90 then ("-" ++ String (Ascii.ascii_of_nat (n + 32)) (hyphens s'))%string
      else String c (hyphens s')
  end.
(** The styles which have a name in CSS *)
Definition CSS_BORDERS : list (string * string) :=
  [("nil", "none"); ("none", "none"); ("single", "solid"); ("double", "double"); ("dotted", "dotted");
   ("dashed", "dashed"); ("outset", "outset"); ("inset", "inset")].

Section Line.
  Variable o : ooxml_opts.
  Definition style_word (names : list string) (b : xnode) (l : list string) : Prop :=
    (exists v x, given names "val" b v /\ border_name v x /\ l = [x]) \/ ((forall v, ~ given names "val" b v) /\ l = []).
  (** The size is in eighths of a point. *)
  Definition size_word (names : list string) (b : xnode) (l : list string) : Prop :=
    (exists v q, given names "sz" b v /\ ox_float o v = Ok q /\ l = [ox_repr o (q / 8)%Q ++ "pt"]%string) \/
    ((forall v, ~ given names "sz" b v) /\ l = []).
  Definition color_word (names : list string) (b : xnode) (l : list string) : Prop :=
    (exists v, given names "color" b v /\ v <> "auto" /\ l = ["#" ++ v]%string) \/
    ((forall v, given names "color" b v -> v = "auto") /\ l = []).
  Fixpoint spaced (l : list string) : string :=
    match l with [] => "" | [a] => a | a :: l' => (a ++ " " ++ spaced l')%string end.
  (** The border as text: its style, its width, its colour *)
  Definition line (names : list string) (b : xnode) (t : string) : Prop :=
    exists l1 l2 l3, style_word names b l1 /\ size_word names b l2 /\ color_word names b l3 /\
      l1 ++ l2 ++ l3 <> [] /\ t = spaced (l1 ++ l2 ++ l3).

  (** The borders of a table (the elements which set them), and the borders of its cells *)
  Definition OUTER : list (string * list string) :=
    [("border-top", ["top"]); ("border-right", ["end"; "right"]); ("border-bottom", ["bottom"]);
     ("border-left", ["start"; "left"]); ("x-border-tr2bl", ["tr2bl"]); ("x-border-tl2br", ["tl2br"])].
  Definition INNER : list (string * list string) :=
    [("x-cell-border-top", ["insideH"]); ("x-cell-border-right", ["insideV"]);
     ("x-cell-border-bottom", ["insideH"]); ("x-cell-border-left", ["insideV"])].
  (** [declares sides n k t]: the properties of the style or of the table [n] set the border [k]. *)
  Definition declares (sides : list (string * list string)) (n : xnode) (k t : string) : Prop :=
    exists b names, element_at ["tblPr"; "tblBorders"] n b /\ In (k, names) sides /\ line names b t.

  (** ** Inheritance *)

  (** The style of the sheet which has this identifier: the first one *)
  Definition style_of (sheet : xnode) (id : string) (st : xnode) : Prop :=
    exists pre post, x_children sheet = pre ++ st :: post /\ is_word "style" st /\
      dget (x_attrs st) (word "styleId") = Some id /\
      forall d, In d pre -> is_word "style" d -> dget (x_attrs d) (word "styleId") <> Some id.
  Definition parent (st : xnode) (id : option string) : Prop :=
    (exists v, value_at ["basedOn"] "val" st v /\ id = Some v) \/
    ((~ exists v, value_at ["basedOn"] "val" st v) /\ id = None).
  (** The style, the style it is based on, and so on *)
  Inductive ancestry (sheet : xnode) : option string -> list xnode -> Prop :=
  | anc_none : ancestry sheet None []
  | anc_unknown id : (forall st, ~ style_of sheet id st) -> ancestry sheet (Some id) []
  | anc_style id st up l : style_of sheet id st -> parent st up -> ancestry sheet up l -> ancestry sheet (Some id) (st :: l).

  (** The border [k] is set by the nearest style which sets it. *)
  Definition nearest (l : list xnode) (k t : string) : Prop :=
    exists near st far, l = near ++ st :: far /\ declares (OUTER ++ INNER) st k t /\
      forall s u, In s near -> ~ declares (OUTER ++ INNER) s k u.

  (** ** Readable properties *)

  (** The numbers can be read, no border has a shadow. *)
  Definition readable_borders (b : xnode) : Prop :=
    forall c, In c (x_children b) ->
      (forall v, dget (x_attrs c) (word "shadow") = Some v -> v = "false") /\
      (forall a v, In a ["space"; "sz"] -> dget (x_attrs c) (word a) = Some v -> exists q, ox_float o v = Ok q).
  Definition readable_style (n : xnode) : Prop := forall b, element_at ["tblPr"; "tblBorders"] n b -> readable_borders b.
  Definition readable_col (n : xnode) : Prop := exists v q, dget (x_attrs n) (word "w") = Some v /\ ox_float o v = Ok q.
  Definition plain_row (tr : xnode) : Prop := ~ exists_at ["trPr"; "trHeight"] tr.
  (** A cell has a paragraph, and its alignments are those of the standard. *)
  Definition readable_cell (tc : xnode) : Prop :=
    exists_at ["p"] tc /\
    (forall v, value_at ["tcPr"; "vAlign"] "val" tc v -> In v ["top"; "center"; "bottom"; "both"]) /\
    (forall p v, In p (x_children tc) -> is_word "p" p -> value_at ["pPr"; "jc"] "val" p v ->
       In v ["start"; "end"; "left"; "right"; "center"; "both"; "distribute"]) /\
    (forall b, element_at ["tcPr"; "tcBorders"] tc b -> readable_borders b).
  (** The page of the section, if any, has its two measures. *)
  Definition readable_section (sect : option xnode) : Prop :=
    forall s pg, sect = Some s -> element_at ["pgSz"] s pg ->
    exists w h p, dget (x_attrs pg) (word "w") = Some w /\ dget (x_attrs pg) (word "h") = Some h /\ ox_page o w h = Ok p.
  (** The style sheet, if any, gives a finite chain of readable styles. *)
  Definition readable_sheet (id : option string) : Prop :=
    (0 < ox_limit o)%nat /\
    forall sheet, ox_styles o = Some sheet ->
    exists l, ancestry sheet id l /\ Forall readable_style l /\ (List.length l < ox_limit o)%nat.
End Line.
(** The style named by a table *)
Definition table_style (tbl : xnode) (id : option string) : Prop :=
  (exists v, value_at ["tblPr"; "tblStyle"] "val" tbl v /\ id = Some v) \/
  ((~ exists v, value_at ["tblPr"; "tblStyle"] "val" tbl v) /\ id = None).

(** ** The styles of the cells *)

(** [below d n]: the element [d] is inside [n]. *)
Inductive below (d : xnode) : xnode -> Prop :=
| below_child n : In d (x_children n) -> below d n
| below_deep c n : In c (x_children n) -> below d c -> below d n.
(** Neither text nor picture *)
Definition textless (tc : xnode) : Prop :=
  forall c, In c (x_children tc) -> is_word "p" c \/ is_word "tbl" c -> char_data (tokens (x_set_tail c None)) = "".
Definition pictureless (tc : xnode) : Prop := forall d, below d tc -> ~ is_word "drawing" d /\ ~ is_word "pict" d.

(** The alignments of the paragraphs; the first of the most frequent ones *)
Definition alignment (p : xnode) (a : option string) : Prop :=
  (exists v, value_at ["pPr"; "jc"] "val" p v /\ a = Some v) \/
  ((~ exists v, value_at ["pPr"; "jc"] "val" p v) /\ a = None).
Definition alignments (tc : xnode) (l : list (option string)) : Prop :=
  exists ps, selects (is_word "p") (x_children tc) ps /\ Forall2 alignment ps l.
Definition opt_string_dec (a b : option string) : {a = b} + {a <> b}.
Proof. decide equality. apply String.string_dec. Defined.
Definition times (l : list (option string)) (a : option string) : nat := count_occ opt_string_dec l a.
Definition dominant (l : list (option string)) (a : option string) : Prop :=
  exists pre post, l = pre ++ a :: post /\
    (forall b, In b pre -> (times l b < times l a)%nat) /\ (forall b, In b post -> (times l b <= times l a)%nat).

(** A value, or what stands for it when it is absent *)
Definition value_or (path : list string) (a def : string) (n : xnode) (v : string) : Prop :=
  value_at path a n v \/ ((~ exists u, value_at path a n u) /\ v = def).

Definition cell_style (o : ooxml_opts) (tc : xnode) (k : string) (v : sval) : Prop :=
  (k = "background-color" /\ exists e f, element_at ["tcPr"; "shd"] tc e /\ dget (x_attrs e) (word "fill") = Some f /\
     f <> "auto" /\ v = SStr ("#" ++ f)) \/
  (k = "vertical-align" /\ exists_at ["tcPr"; "vAlign"] tc /\ exists a x, value_or ["tcPr"; "vAlign"] "val" "top" tc a /\
     In (a, x) [("top", "top"); ("center", "middle"); ("bottom", "bottom"); ("both", "w-both")] /\ v = SStr x) \/
  (k = "align" /\ exists l a x, alignments tc l /\ dominant l (Some a) /\
     In (a, x) [("start", "left"); ("end", "right"); ("left", "left"); ("right", "right"); ("center", "center");
                ("both", "justify"); ("distribute", "justify")] /\ v = SStr x) \/
  (k = "x-cell-empty" /\ textless tc /\ pictureless tc /\ v = SStr "true") \/
  (exists b names t, element_at ["tcPr"; "tcBorders"] tc b /\ In (k, names) OUTER /\ line o names b t /\ v = SStr t).
Definition CELL_STYLES : list string :=
  ["background-color"; "vertical-align"; "align"; "x-cell-empty"] ++ map fst OUTER.

(** The styles of the rows: the marks of an inserted row *)
Definition row_style (tr : xnode) (k : string) (v : sval) : Prop :=
  exists_at ["trPr"; "ins"] tr /\
  ((k = "x-ins" /\ v = SBool true) \/
   (exists a u, In (k, a) [("x-ins-id", "id"); ("x-ins-author", "author"); ("x-ins-date", "date")] /\
      value_at ["trPr"; "ins"] a tr u /\ u <> "" /\ v = SStr u)).
Definition ROW_STYLES : list string := ["x-ins"; "x-ins-id"; "x-ins-author"; "x-ins-date"].
