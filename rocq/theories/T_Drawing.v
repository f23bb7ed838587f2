(** * Theorems about drawings (C33, C34) *)
From Verif Require Import Base M_Geometry M_Xml M_Cell M_Grid M_Drawing.
From Verif Require Import S_Geometry S_Cell S_Grid S_Drawing P_Geometry P_Cell P_Grid P_GridFacts P_Drawing.
From Verif Require Import T_Grid.

(** ** C33: the drawing is a rectangle *)

(** Full statement: for all cell texts; it is false, see [C33_line_break_refuted].  Proved when no
    text has a line break among its first nine characters. *)
Theorem C33_rectangle_partial : forall g, reachable g -> g <> [] -> (forall c, In c g -> plain c) ->
    exists bb pic s,
      grid_bounding_box g = Ok (Some bb) /\ grid_str g = Ok s /\ text_of_lines pic s /\
      List.length pic = (2 * Z.to_nat (box_height bb) + 1)%nat /\
      Forall (fun l => List.length l = (12 * Z.to_nat (box_width bb) + 1)%nat /\
                       Forall (fun a => ~ line_break a) l) pic.
Proof.
  intros g H1 H2 H3. destruct (drawing_spec g H1 H2 H3) as (bb & pic & s & A & B & C & D & E & _).
  exists bb, pic, s. auto.
Qed.

Theorem C33_empty : grid_str [] = Ok EmptyString.
Proof. reflexivity. Qed.

Ltac prove_plain := unfold plain; cbn;
  repeat (constructor; [intros HB; cbv in HB; repeat (destruct HB as [HB|HB]; [discriminate|]); exact HB|]); constructor.

Example C33_ex :
  reachable ex_grid /\ ex_grid <> [] /\ (forall c, In c ex_grid -> plain c) /\
  exists s, grid_str ex_grid = Ok s /\ String.length s <> O.
Proof.
  split; [apply ex_grid_value|]. split; [vm_compute; discriminate|]. split.
  - intros c Hc. vm_compute in Hc.
    repeat (destruct Hc as [<-|Hc]; [prove_plain|]). destruct Hc.
  - eexists. split; [vm_compute; reflexivity|]. vm_compute. discriminate.
Qed.

(** A text with a line break gives lines of different lengths, or an exception. *)
Definition br_cell (a b : string) : cell :=
  MkCell (CText (a ++ String (ascii_of_nat 10) b)) [] None (MkBox (Coord 1 1) (Coord 1 1)).
Theorem C33_line_break_refuted :
  (exists g s, reachable g /\ grid_str g = Ok s /\
     map (@List.length ascii) (py_splitlines (list_ascii_of_string s)) = [13; 6; 6; 13]%nat) /\
  (exists g, reachable g /\ grid_str g = Err EIndexError).
Proof.
  split.
  - exists (grun [] [GSet (PTuple [PInt 1; PInt 1]) (br_cell "a" "b")]). eexists. split; [|split].
    + apply grun_reachable. apply (reach_new []). reflexivity.
    + vm_compute. reflexivity.
    + vm_compute. reflexivity.
  - exists (grun [] [GSet (PTuple [PInt 1; PInt 1]) (br_cell "a" "b");
                     GSet (PTuple [PInt 2; PInt 1]) (MkCell (CText "c") [] None (MkBox (Coord 2 1) (Coord 2 1)))]).
    split.
    + apply grun_reachable. apply (reach_new []). reflexivity.
    + vm_compute. reflexivity.
Qed.

(** ** C34: borders and texts *)

(** Each tile of the picture, by coordinate: what is seen there gives its borders and its text. *)
Theorem C34_tiles : forall g, reachable g -> g <> [] -> (forall c, In c g -> plain c) ->
    exists bb pic s,
      grid_bounding_box g = Ok (Some bb) /\ grid_str g = Ok s /\ text_of_lines pic s /\
      forall k b text, covers bb k -> seen_at g k b text ->
        exists shown,
          tile_drawn pic (2 * (cy k - cy (bmin bb))) (12 * (cx k - cx (bmin bb)))
            (cx (bmin b) =? cx k) (cy (bmin b) =? cy k) (cx k =? cx (bmax bb)) (cy k =? cy (bmax bb)) shown /\
          ((k = text_place b /\ centred text shown) \/ (k <> text_place b /\ shown = repeat " "%char 9)).
Proof.
  intros g H1 H2 H3. destruct (drawing_spec g H1 H2 H3) as (bb & pic & s & A & B & C & _ & _ & D).
  exists bb, pic, s. auto.
Qed.

(** Full statement: each cell shows its text, for every reachable grid; false when cells overlap, see
    below.  Without overlap, a cell is what is seen at each of its coordinates, and the place of its
    text is one of them. *)
Theorem C34_cell_shown_partial : forall g c, reachable g -> no_overlap g -> In c g ->
    covers (c_box c) (text_place (c_box c)) /\
    forall k, covers (c_box c) k -> seen_at g k (c_box c) (list_ascii_of_string (cell_str c)).
Proof.
  intros g c HR HN Hc. split.
  - apply text_place_covered. pose proof (reachable_inv g HR) as HI. apply (inv_valid g); auto.
  - intros k Hk. apply (seen_own g c k HN Hc Hk).
Qed.

Example C34_ex : exists c, In c ex_grid /\ box_width (c_box c) > 1 /\ seen_at ex_grid (text_place (c_box c)) (c_box c) ["a"%char; "b"%char].
Proof.
  exists (MkCell (CText "ab") [] None (MkBox (Coord 1 1) (Coord 2 1))). split; [vm_compute; auto|].
  split; [vm_compute; reflexivity|]. left. eexists. split; [vm_compute; reflexivity|]. split; vm_compute; reflexivity.
Qed.

(** Overlapping cells which the grid accepts: one text is nowhere in the drawing. *)
Definition hid_cell (s : string) (x1 y1 x2 y2 : Z) : cell := MkCell (CText s) [] None (MkBox (Coord x1 y1) (Coord x2 y2)).
Theorem C34_hidden_text_refuted : exists g c,
    reachable g /\ In c g /\ (forall k, seen_at g k (c_box c) (list_ascii_of_string (cell_str c)) -> k <> text_place (c_box c)) /\
    exists s, grid_str g = Ok s /\ ~ In "B"%char (list_ascii_of_string s).
Proof.
  exists (grun [] [GSet (PTuple [PInt 2; PInt 1]) (hid_cell "A" 2 1 4 2);
                   GSet (PTuple [PInt 1; PInt 2]) (hid_cell "B" 1 2 3 3)]).
  exists (hid_cell "B" 1 2 3 3). split; [|split; [|split]].
  - apply grun_reachable. apply (reach_new []). reflexivity.
  - vm_compute. auto.
  - intros k Hk ->. destruct Hk as [(c & E & Eb & _)|(E & _)]; vm_compute in E; [|discriminate].
    injection E as <-. discriminate.
  - eexists. split; [vm_compute; reflexivity|]. vm_compute. intros H.
    repeat (destruct H as [H|H]; [discriminate|]). exact H.
Qed.

Print Assumptions C33_rectangle_partial.
Print Assumptions C33_empty.
Print Assumptions C33_line_break_refuted.
Print Assumptions C34_tiles.
Print Assumptions C34_cell_shown_partial.
Print Assumptions C34_hidden_text_refuted.
