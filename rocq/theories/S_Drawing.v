(** * Specification vocabulary for drawings *)
From Verif Require Import Base M_Geometry M_Xml M_Cell M_Grid S_Geometry S_Grid.

(** The characters which end a line for [str.splitlines] *)
Definition line_break (c : ascii) : Prop :=
  In (nat_of_ascii c) [10; 11; 12; 13; 28; 29; 30; 133]%nat.

(** The text of the cell has no line break among its first nine characters. *)
Definition plain (c : cell) : Prop :=
  Forall (fun a => ~ line_break a) (firstn 9 (list_ascii_of_string (cell_str c))).

(** The text made of these lines *)
Inductive text_of_lines : list (list ascii) -> string -> Prop :=
| tl_one l : text_of_lines [l] (string_of_list_ascii l)
| tl_more l ls s : text_of_lines ls s -> ls <> [] ->
    text_of_lines (l :: ls)
      (String.append (string_of_list_ascii l) (String (ascii_of_nat 10) s)).

Definition char_at (pic : list (list ascii)) (line column : Z) : option ascii :=
  match nth_error pic (Z.to_nat line) with
  | Some l => nth_error l (Z.to_nat column)
  | None => None
  end.

(** The text centred on nine characters, or cut *)
Definition centred (text title : list ascii) : Prop :=
  List.length title = 9%nat /\
  ((List.length text > 9)%nat -> title = firstn 9 text) /\
  ((List.length text <= 9)%nat ->
   exists a b, title = repeat " "%char a ++ text ++ repeat " "%char b /\ (a <= b <= a + 1)%nat).

(** [seen_at g k b text]: what is to be drawn at coordinate [k]: the area and the text of the cell
    found by [grid[k]], or an empty square *)
Definition seen_at (g : grid) (k : coord) (b : box) (text : list ascii) : Prop :=
  (exists c, grid_getitem g (PCoord k) = Ok c /\ b = c_box c /\ text = list_ascii_of_string (cell_str c)) \/
  (grid_getitem g (PCoord k) = Err EKeyError /\ b = MkBox k k /\ text = []).

(** The coordinate of a box where its text is drawn *)
Definition text_place (b : box) : coord :=
  Coord ((cx (bmin b) + cx (bmax b)) / 2) ((cy (bmin b) + cy (bmax b)) / 2).

(** What the picture shows in the tile at line [i] and column [j]: the borders and nine characters
    of text.  [left] ... tell whether the tile has a border on this side. *)
Record tile_drawn (pic : list (list ascii)) (i j : Z) (left top right bottom : bool) (text : list ascii)
  : Prop := {
  td_corner : char_at pic i j = Some (if left then (if top then "+" else "|")
                                      else (if top then "-" else " "))%char;
  td_top : forall k, 1 <= k <= 11 -> char_at pic i (j + k) = Some (if top then "-" else " ")%char;
  td_left : char_at pic (i + 1) j = Some (if left then "|" else " ")%char;
  td_pad : char_at pic (i + 1) (j + 1) = Some " "%char /\ char_at pic (i + 1) (j + 11) = Some " "%char;
  td_text : forall k, 0 <= k <= 8 -> char_at pic (i + 1) (j + 2 + k) = nth_error text (Z.to_nat k);
  td_right : right = true ->
    char_at pic i (j + 12) = Some (if top then "+" else "|")%char /\
    char_at pic (i + 1) (j + 12) = Some "|"%char;
  td_bottom : bottom = true ->
    char_at pic (i + 2) j = Some (if left then "+" else "-")%char /\
    (forall k, 1 <= k <= 11 -> char_at pic (i + 2) (j + k) = Some "-"%char) /\
    (right = true -> char_at pic (i + 2) (j + 12) = Some "+"%char)
}.
