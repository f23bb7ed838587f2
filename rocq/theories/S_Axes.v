(** * Specification vocabulary: the rows and the columns of a table written and read back *)
From Coq Require Import QArith.
From Verif Require Import Base M_Geometry M_Xml M_Cell M_Grid M_Table S_Geometry S_Grid S_Table S_Units S_Builder S_Cals S_CalsParser S_RoundTrip S_Attrs.
Open Scope string_scope.
Open Scope list_scope.
Open Scope Z_scope.

(** An alignment which is not one of the four is not written. *)
Definition kept_align (v : option sval) : option sval :=
  match v with
  | Some (SStr s) => if existsb (String.eqb s) ["left"; "right"; "center"; "justify"] then v else None
  | _ => None
  end.
(** A line of a row or of a column: its own, or the one the table gives to its cells *)
Definition line_kept (t' : table) (st' st : styles) (style : string) : Prop :=
  (forall w, line_of st style w ->
     match dget st' style with Some v => Some v | None => dget (t_styles t') (String.append "x-cell-" style) end = Some (kept_line w)) /\
  ((forall w, ~ line_of st style w) -> dget st' style = None).
(** The width, as written in the unit [unit] *)
Definition width_kept (unit : string) (fmt : Q -> string) (st' st : styles) : Prop :=
  exists w, width_as unit fmt (dget st "width") w /\ dget st' "width" = option_map SStr w.

Definition column_kept (unit : string) (fmt : Q -> string) (t' : table) (v' v : view) : Prop :=
  let st' := v_styles v' in let st := v_styles v in
  dget st' "align" = kept_align (dget st "align") /\
  width_kept unit fmt st' st /\
  line_kept t' st' st "border-right" /\
  line_kept t' st' st "border-bottom" /\
  forall k, ~ In k ["align"; "width"; "border-right"; "border-bottom"] -> dget st' k = None.
(** [bg] is what becomes of the background. *)
Definition row_kept (bg : option sval -> option sval) (t' : table) (v' v : view) : Prop :=
  let st' := v_styles v' in let st := v_styles v in
  dget st' "vertical-align" = kept_valign (dget st "vertical-align") /\
  dget st' "rowstyle" = kept_text (dget st "rowstyle") /\
  line_kept t' st' st "border-bottom" /\
  dget st' "background-color" = bg (dget st "background-color") /\
  forall k, ~ In k ["vertical-align"; "rowstyle"; "border-bottom"; "background-color"] -> dget st' k = None.
(** Formex: without the CALS attributes, nothing is kept. *)
Definition fcolumn_kept (use_cals : bool) (unit : string) (fmt : Q -> string) (t' : table) (v' v : view) : Prop :=
  if use_cals then column_kept unit fmt t' v' v else forall k, dget (v_styles v') k = None.
