(** * Model of benker/drawing.py

    Texts are lists of characters here.  The parameter [tiles] always has its default value, as in
    [str(grid)]. *)
From Verif Require Import Base M_Geometry M_Xml M_Cell M_Grid.

Definition text_chars (s : string) : list ascii := list_ascii_of_string s.
Definition newline : ascii := ascii_of_nat 10.

(** drawing.py:16-92 TILES: the lines of the tile for (left, top, right, bottom) *)
Definition tile_rows (left top right bottom : bool) : list string :=
  match left, top, right, bottom with
  | true, true, true, true =>
      ["+-----------+";
       "| XXXXXXXXX |";
       "+-----------+"]
  | true, true, true, false =>
      ["+-----------+";
       "| XXXXXXXXX |"]
  | true, true, false, true =>
      ["+-----------";
       "| XXXXXXXXX ";
       "+-----------"]
  | true, true, false, false =>
      ["+-----------";
       "| XXXXXXXXX "]
  | true, false, true, true =>
      ["|           |";
       "| XXXXXXXXX |";
       "+-----------+"]
  | true, false, true, false =>
      ["|           |";
       "| XXXXXXXXX |"]
  | true, false, false, true =>
      ["|           ";
       "| XXXXXXXXX ";
       "+-----------"]
  | true, false, false, false =>
      ["|           ";
       "| XXXXXXXXX "]
  | false, true, true, true =>
      ["------------+";
       "  XXXXXXXXX |";
       "------------+"]
  | false, true, true, false =>
      ["------------+";
       "  XXXXXXXXX |"]
  | false, true, false, true =>
      ["------------";
       "  XXXXXXXXX ";
       "------------"]
  | false, true, false, false =>
      ["------------";
       "  XXXXXXXXX "]
  | false, false, true, true =>
      ["            |";
       "  XXXXXXXXX |";
       "------------+"]
  | false, false, true, false =>
      ["            |";
       "  XXXXXXXXX |"]
  | false, false, false, true =>
      ["            ";
       "  XXXXXXXXX ";
       "------------"]
  | false, false, false, false =>
      ["            ";
       "  XXXXXXXXX "]
  end%string.
(** The literal of the source: each line is followed by a newline. *)
Definition tile_text (left top right bottom : bool) : list ascii :=
  List.concat (map (fun row => text_chars row ++ [newline]) (tile_rows left top right bottom)).

(** [s.replace(old, new)] for a non-empty [old]: [skip] characters of a match are still to be dropped *)
Fixpoint prefixb (p s : list ascii) : bool :=
  match p, s with
  | [], _ => true
  | _, [] => false
  | a :: p', b :: s' => Ascii.eqb a b && prefixb p' s'
  end.
Fixpoint replace_from (old new : list ascii) (skip : nat) (s : list ascii) : list ascii :=
  match s with
  | [] => []
  | c :: s' =>
      match skip with
      | S k => replace_from old new k s'
      | O => if prefixb old s then new ++ replace_from old new (List.length old - 1) s'
             else c :: replace_from old new 0 s'
      end
  end.
Definition py_replace (s old new : list ascii) : list ascii := replace_from old new 0 s.

(** The line boundaries of [str.splitlines] below 256: \n \v \f \r \x1c \x1d \x1e \x85 *)
Definition is_break (c : ascii) : bool :=
  let n := nat_of_ascii c in
  (Nat.leb 10 n && Nat.leb n 13) || (Nat.leb 28 n && Nat.leb n 30) || Nat.eqb n 133.

(** [s.splitlines()]: [cur] is the current line, reversed; \r\n is one boundary; no line after a
    final boundary *)
Fixpoint split_from (cur : list ascii) (s : list ascii) : list (list ascii) :=
  match s with
  | [] => match cur with [] => [] | _ => [rev cur] end
  | c :: s' =>
      if is_break c then
        rev cur ::
        (match s' with
         | d :: s'' =>
             if Ascii.eqb c (ascii_of_nat 13) && Ascii.eqb d newline then split_from [] s''
             else split_from [] s'
         | [] => split_from [] s'
         end)
      else split_from (c :: cur) s'
  end.
Definition py_splitlines (s : list ascii) : list (list ascii) := split_from [] s.

(** ["{0:^9}".format(text)[:9]] (drawing.py:115) *)
Definition spaces (n : nat) : list ascii := repeat (ascii_of_nat 32) n.
Definition title_of (text : list ascii) : list ascii :=
  let pad := (9 - List.length text)%nat in
  firstn 9 (spaces (Nat.div pad 2) ++ text ++ spaces (pad - Nat.div pad 2)).

(** drawing.py:100-119: the tile of one coordinate *)
Definition draw_tile (g : grid) (bb : box) (col_idx row_idx : Z) : result (list ascii) :=
  bt <-? (if grid_contains_c g (Coord col_idx row_idx) then
            cell <-? grid_getitem_c g (Coord col_idx row_idx) ;;
            Ok (c_box cell, text_chars (cell_str cell))
          else
            box <-? box_new [PInt col_idx; PInt row_idx] ;;
            Ok (box, [])) ;;
  let box := fst bt in
  let text := snd bt in
  let left := cx (bmin box) =? col_idx in
  let top := cy (bmin box) =? row_idx in
  let right := cx (bmax bb) =? col_idx in
  let bottom := cy (bmax bb) =? row_idx in
  let tile := tile_text left top right bottom in
  if ((cx (bmin box) + cx (bmax box)) / 2 =? col_idx) && ((cy (bmin box) + cy (bmax box)) / 2 =? row_idx)
  then Ok (py_replace tile (text_chars "XXXXXXXXX") (title_of text))
  else Ok (py_replace tile (text_chars "XXXXXXXXX") (spaces 9)).

(** drawing.py:95-120 iter_tiles *)
Definition iter_tiles (g : grid) (bb : box) : result (list (list (list ascii))) :=
  rmap (fun row_idx =>
          rmap (fun col_idx => draw_tile g bb col_idx row_idx)
            (zrange (cx (bmin bb)) (cx (bmax bb) + 1)))
    (zrange (cy (bmin bb)) (cy (bmax bb) + 1)).

(** drawing.py:125-128: the lines of one row of tiles *)
Definition nonempty (l : list ascii) : bool := match l with [] => false | _ => true end.
Definition row_lines (row : list (list ascii)) : result (list (list ascii)) :=
  let tiles := map (fun tile => filter nonempty (py_splitlines tile)) row in
  tile0 <-? py_nth tiles 0 ;;
  rmap (fun index => parts <-? rmap (fun tile => py_nth tile index) tiles ;; Ok (List.concat parts))
    (zrange 0 (Z.of_nat (List.length tile0))).

(** drawing.py:123-128 iter_lines *)
Definition iter_lines (g : grid) (bb : box) : result (list (list ascii)) :=
  rows <-? iter_tiles g bb ;;
  lines <-? rmap row_lines rows ;;
  Ok (List.concat lines).

(** ["\n".join(lines)] *)
Fixpoint join_lines (lines : list (list ascii)) : list ascii :=
  match lines with
  | [] => []
  | [l] => l
  | l :: lines' => l ++ newline :: join_lines lines'
  end.

(** drawing.py:131-145 draw; a Grid is true when it has cells.  Grid.__str__ (grid.py:186-187) and
    Table.__str__ (table.py:488-489) are this function. *)
Definition draw (g : grid) : result (list ascii) :=
  match g with
  | [] => Ok []
  | _ =>
      bb <-? grid_bounding_box g ;;
      match bb with
      | None => Err EAttributeError
      | Some bb => lines <-? iter_lines g bb ;; Ok (join_lines lines)
      end
  end.
Definition grid_str (g : grid) : result string :=
  s <-? draw g ;; Ok (string_of_list_ascii s).
