(** * Model of benker/drawing.py with tiles given by the caller: [draw(grid, tiles)]

    M_Drawing.v has the default tiles.  The functions are generators in the source: the tiles of a row are looked for when the
    lines of the rows above have been made (drawing.py:95-128), which tells which error comes first. *)
From Verif Require Import Base M_Geometry M_Xml M_Cell M_Grid M_Drawing.

(** A dictionary of tiles; the keys are (left, top, right, bottom) *)
Definition tile_key : Type := (bool * bool * bool * bool)%type.
Definition tile_set : Type := list (tile_key * string).
Definition key_eqb (a b : tile_key) : bool :=
  let '(l, t, r, b1) := a in let '(l', t', r', b') := b in
  Bool.eqb l l' && Bool.eqb t t' && Bool.eqb r r' && Bool.eqb b1 b'.
(** [tiles[key]] *)
Fixpoint tile_get (tiles : tile_set) (key : tile_key) : result (list ascii) :=
  match tiles with
  | [] => Err EKeyError
  | (k, text) :: tiles' => if key_eqb k key then Ok (text_chars text) else tile_get tiles' key
  end.
(** drawing.py:96 [tiles = tiles or TILES]: an empty dictionary stands for the default one *)
Definition tile_of (tiles : option tile_set) (key : tile_key) : result (list ascii) :=
  match tiles with
  | None | Some [] => let '(l, t, r, b) := key in Ok (tile_text l t r b)
  | Some tiles => tile_get tiles key
  end.

(** drawing.py:100-119, as [draw_tile] in M_Drawing.v *)
Definition draw_tile_with (tiles : option tile_set) (g : grid) (bb : box) (col_idx row_idx : Z) : result (list ascii) :=
  bt <-? (if grid_contains_c g (Coord col_idx row_idx) then
            cell <-? grid_getitem_c g (Coord col_idx row_idx) ;;
            Ok (c_box cell, text_chars (cell_str cell))
          else
            box <-? box_new [PInt col_idx; PInt row_idx] ;;
            Ok (box, [])) ;;
  let box := fst bt in
  let text := snd bt in
  let left := cx (bmin box) =? col_idx in
  let top := cy (bmin box) =? row_idx in
  let right := cx (bmax bb) =? col_idx in
  let bottom := cy (bmax bb) =? row_idx in
  tile <-? tile_of tiles (left, top, right, bottom) ;;
  if ((cx (bmin box) + cx (bmax box)) / 2 =? col_idx) && ((cy (bmin box) + cy (bmax box)) / 2 =? row_idx)
  then Ok (py_replace tile (text_chars "XXXXXXXXX") (title_of text))
  else Ok (py_replace tile (text_chars "XXXXXXXXX") (spaces 9)).

(** drawing.py:98-120 one row of iter_tiles, then drawing.py:125-128 its lines *)
Definition row_with (tiles : option tile_set) (g : grid) (bb : box) (row_idx : Z) : result (list (list ascii)) :=
  row <-? rmap (fun col_idx => draw_tile_with tiles g bb col_idx row_idx) (zrange (cx (bmin bb)) (cx (bmax bb) + 1)) ;;
  row_lines row.
(** drawing.py:123-128 iter_lines *)
Definition iter_lines_with (tiles : option tile_set) (g : grid) (bb : box) : result (list (list ascii)) :=
  blocks <-? rmap (row_with tiles g bb) (zrange (cy (bmin bb)) (cy (bmax bb) + 1)) ;;
  Ok (List.concat blocks).
(** drawing.py:131-145 draw *)
Definition draw_with (g : grid) (tiles : option tile_set) : result string :=
  match g with
  | [] => Ok EmptyString
  | _ =>
      bb <-? grid_bounding_box g ;;
      match bb with
      | None => Err EAttributeError
      | Some bb => lines <-? iter_lines_with tiles g bb ;; Ok (string_of_list_ascii (join_lines lines))
      end
  end.
