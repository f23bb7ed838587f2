(** * Model of benker/parsers/ooxml

    Floating point numbers are left open: [ox_float] is [float(s)] (a rational number, or an error),
    [ox_repr] is the text of a float ("{0}"), [ox_fixed] its text with two decimals ("{0:0.2f}") and
    [ox_page] the pair of the measures of a page.  The limit of the recursion of python is
    [ox_limit].  The search of the section which follows the table (XPath axis [following]) is not
    modelled: the section is a parameter.  The identifiers of styles have no quote (they are pasted
    into an XPath).  The removal of the tails of the paragraphs in the source tree is modelled in the
    content of the cells only.  As for CALS, [state.row] is known by its position: [Table.expand], the
    only call which shortens the lists of views, always reaches the row which is being read. *)
From Coq Require Import QArith.
From Verif Require Import Base M_Geometry M_Xml M_Cell M_Grid M_Table M_Regex M_Str M_Units M_Cals M_CalsParser.
Open Scope Z_scope.
Open Scope string_scope.

Record ooxml_opts := MkOoxmlOpts {
  ox_styles : option xnode;
  ox_float : string -> result Q;
  ox_repr : Q -> string;
  ox_fixed : Q -> string;
  ox_page : string -> string -> result sval;
  ox_limit : nat
}.

(** ooxml/namespaces.py:11-18 NS, w *)
Definition WNS : string := "http://schemas.openxmlformats.org/wordprocessingml/2006/main".
Definition wq (name : string) : string := qname (Some WNS) name.

(** The XPath expressions "w:a/w:b", "w:a/w:b/@w:k" (the values in document order), and
    base_parser.py:87-108 value_of: the first result *)
Definition w_children (name : string) (n : xnode) : list xnode :=
  filter (fun c => x_has_tag c (wq name)) (x_children n).
Fixpoint w_path (path : list string) (n : xnode) : list xnode :=
  match path with
  | [] => [n]
  | name :: path' => flat_map (w_path path') (w_children name n)
  end.
Definition w_first (path : list string) (n : xnode) : option xnode := hd_error (w_path path n).
Fixpoint first_attr (k : string) (l : list xnode) : option string :=
  match l with
  | [] => None
  | n :: l' => match x_get n (wq k) with Some v => Some v | None => first_attr k l' end
  end.
Definition w_attr (path : list string) (k : string) (n : xnode) : option string := first_attr k (w_path path n).
(** value_of of None *)
Definition on_node {A} (f : xnode -> option A) (n : option xnode) : option A :=
  match n with Some n => f n | None => None end.
Definition or_default (d : string) (v : option string) : string := match v with Some v => v | None => d end.

(** __init__.py:31-606 _BORDER_STYLE_MAPPING *)
Definition BORDER_STYLES : dict string :=
  [
    ("nil", "none"); ("none", "none"); ("single", "solid"); ("thick", "w-thick"); ("double", "double");
    ("dotted", "dotted"); ("dashed", "dashed"); ("dotDash", "w-dot-dash"); ("dotDotDash", "w-dot-dot-dash");
    ("triple", "w-triple"); ("thinThickSmallGap", "w-thin-thick-small-gap");
    ("thickThinSmallGap", "w-thick-thin-small-gap");
    ("thinThickThinSmallGap", "w-thin-thick-thin-small-gap");
    ("thinThickMediumGap", "w-thin-thick-medium-gap"); ("thickThinMediumGap", "w-thick-thin-medium-gap");
    ("thinThickThinMediumGap", "w-thin-thick-thin-medium-gap");
    ("thinThickLargeGap", "w-thin-thick-large-gap"); ("thickThinLargeGap", "w-thick-thin-large-gap");
    ("thinThickThinLargeGap", "w-thin-thick-thin-large-gap"); ("wave", "w-wave");
    ("doubleWave", "w-double-wave"); ("dashSmallGap", "w-dash-small-gap");
    ("dashDotStroked", "w-dash-dot-stroked"); ("threeDEmboss", "w-three-d-emboss");
    ("threeDEngrave", "w-three-d-engrave"); ("outset", "outset"); ("inset", "inset");
    ("apples", "w-apples"); ("archedScallops", "w-arched-scallops"); ("babyPacifier", "w-baby-pacifier");
    ("babyRattle", "w-baby-rattle"); ("balloons3Colors", "w-balloons3-colors");
    ("balloonsHotAir", "w-balloons-hot-air"); ("basicBlackDashes", "w-basic-black-dashes");
    ("basicBlackDots", "w-basic-black-dots"); ("basicBlackSquares", "w-basic-black-squares");
    ("basicThinLines", "w-basic-thin-lines"); ("basicWhiteDashes", "w-basic-white-dashes");
    ("basicWhiteDots", "w-basic-white-dots"); ("basicWhiteSquares", "w-basic-white-squares");
    ("basicWideInline", "w-basic-wide-inline"); ("basicWideMidline", "w-basic-wide-midline");
    ("basicWideOutline", "w-basic-wide-outline"); ("bats", "w-bats"); ("birds", "w-birds");
    ("birdsFlight", "w-birds-flight"); ("cabins", "w-cabins"); ("cakeSlice", "w-cake-slice");
    ("candyCorn", "w-candy-corn"); ("celticKnotwork", "w-celtic-knotwork");
    ("certificateBanner", "w-certificate-banner"); ("chainLink", "w-chain-link");
    ("champagneBottle", "w-champagne-bottle"); ("checkedBarBlack", "w-checked-bar-black");
    ("checkedBarColor", "w-checked-bar-color"); ("checkered", "w-checkered");
    ("christmasTree", "w-christmas-tree"); ("circlesLines", "w-circles-lines");
    ("circlesRectangles", "w-circles-rectangles"); ("classicalWave", "w-classical-wave");
    ("clocks", "w-clocks"); ("compass", "w-compass"); ("confetti", "w-confetti");
    ("confettiGrays", "w-confetti-grays"); ("confettiOutline", "w-confetti-outline");
    ("confettiStreamers", "w-confetti-streamers"); ("confettiWhite", "w-confetti-white");
    ("cornerTriangles", "w-corner-triangles"); ("couponCutoutDashes", "w-coupon-cutout-dashes");
    ("couponCutoutDots", "w-coupon-cutout-dots"); ("crazyMaze", "w-crazy-maze");
    ("creaturesButterfly", "w-creatures-butterfly"); ("creaturesFish", "w-creatures-fish");
    ("creaturesInsects", "w-creatures-insects"); ("creaturesLadyBug", "w-creatures-lady-bug");
    ("crossStitch", "w-cross-stitch"); ("cup", "w-cup"); ("decoArch", "w-deco-arch");
    ("decoArchColor", "w-deco-arch-color"); ("decoBlocks", "w-deco-blocks");
    ("diamondsGray", "w-diamonds-gray"); ("doubleD", "w-double-d"); ("doubleDiamonds", "w-double-diamonds");
    ("earth1", "w-earth1"); ("earth2", "w-earth2"); ("eclipsingSquares1", "w-eclipsing-squares1");
    ("eclipsingSquares2", "w-eclipsing-squares2"); ("eggsBlack", "w-eggs-black"); ("fans", "w-fans");
    ("film", "w-film"); ("firecrackers", "w-firecrackers"); ("flowersBlockPrint", "w-flowers-block-print");
    ("flowersDaisies", "w-flowers-daisies"); ("flowersModern1", "w-flowers-modern1");
    ("flowersModern2", "w-flowers-modern2"); ("flowersPansy", "w-flowers-pansy");
    ("flowersRedRose", "w-flowers-red-rose"); ("flowersRoses", "w-flowers-roses");
    ("flowersTeacup", "w-flowers-teacup"); ("flowersTiny", "w-flowers-tiny"); ("gems", "w-gems");
    ("gingerbreadMan", "w-gingerbread-man"); ("gradient", "w-gradient"); ("handmade1", "w-handmade1");
    ("handmade2", "w-handmade2"); ("heartBalloon", "w-heart-balloon"); ("heartGray", "w-heart-gray");
    ("hearts", "w-hearts"); ("heebieJeebies", "w-heebie-jeebies"); ("holly", "w-holly");
    ("houseFunky", "w-house-funky"); ("hypnotic", "w-hypnotic"); ("iceCreamCones", "w-ice-cream-cones");
    ("lightBulb", "w-light-bulb"); ("lightning1", "w-lightning1"); ("lightning2", "w-lightning2");
    ("mapPins", "w-map-pins"); ("mapleLeaf", "w-maple-leaf"); ("mapleMuffins", "w-maple-muffins");
    ("marquee", "w-marquee"); ("marqueeToothed", "w-marquee-toothed"); ("moons", "w-moons");
    ("mosaic", "w-mosaic"); ("musicNotes", "w-music-notes"); ("northwest", "w-northwest");
    ("ovals", "w-ovals"); ("packages", "w-packages"); ("palmsBlack", "w-palms-black");
    ("palmsColor", "w-palms-color"); ("paperClips", "w-paper-clips"); ("papyrus", "w-papyrus");
    ("partyFavor", "w-party-favor"); ("partyGlass", "w-party-glass"); ("pencils", "w-pencils");
    ("people", "w-people"); ("peopleWaving", "w-people-waving"); ("peopleHats", "w-people-hats");
    ("poinsettias", "w-poinsettias"); ("postageStamp", "w-postage-stamp"); ("pumpkin1", "w-pumpkin1");
    ("pushPinNote2", "w-push-pin-note2"); ("pushPinNote1", "w-push-pin-note1"); ("pyramids", "w-pyramids");
    ("pyramidsAbove", "w-pyramids-above"); ("quadrants", "w-quadrants"); ("rings", "w-rings");
    ("safari", "w-safari"); ("sawtooth", "w-sawtooth"); ("sawtoothGray", "w-sawtooth-gray");
    ("scaredCat", "w-scared-cat"); ("seattle", "w-seattle"); ("shadowedSquares", "w-shadowed-squares");
    ("sharksTeeth", "w-sharks-teeth"); ("shorebirdTracks", "w-shorebird-tracks");
    ("skyrocket", "w-skyrocket"); ("snowflakeFancy", "w-snowflake-fancy"); ("snowflakes", "w-snowflakes");
    ("sombrero", "w-sombrero"); ("southwest", "w-southwest"); ("stars", "w-stars");
    ("starsTop", "w-stars-top"); ("stars3d", "w-stars3d"); ("starsBlack", "w-stars-black");
    ("starsShadowed", "w-stars-shadowed"); ("sun", "w-sun"); ("swirligig", "w-swirligig");
    ("tornPaper", "w-torn-paper"); ("tornPaperBlack", "w-torn-paper-black"); ("trees", "w-trees");
    ("triangleParty", "w-triangle-party"); ("triangles", "w-triangles"); ("tribal1", "w-tribal1");
    ("tribal2", "w-tribal2"); ("tribal3", "w-tribal3"); ("tribal4", "w-tribal4"); ("tribal5", "w-tribal5");
    ("tribal6", "w-tribal6"); ("twistedLines1", "w-twisted-lines1"); ("twistedLines2", "w-twisted-lines2");
    ("vine", "w-vine"); ("waveline", "w-waveline"); ("weavingAngles", "w-weaving-angles");
    ("weavingBraid", "w-weaving-braid"); ("weavingRibbon", "w-weaving-ribbon");
    ("weavingStrips", "w-weaving-strips"); ("whiteFlowers", "w-white-flowers"); ("woodwork", "w-woodwork");
    ("xIllusions", "w-x-illusions"); ("zanyTriangles", "w-zany-triangles"); ("zigZag", "w-zig-zag");
    ("zigZagStitch", "w-zig-zag-stitch")
  ].

(** __init__.py:610-635 _get_border_properties; the keys of [prop] which may be absent *)
Record border_prop := MkBorderProp {
  bp_color : option string;
  bp_shadow : option bool;
  bp_space : option Q;
  bp_sz : option Q;
  bp_val : option string
}.
(** The expressions "w:end/@w:k | w:right/@w:k": [names] are the alternatives *)
Definition border_nodes (names : list string) (n : xnode) : list xnode :=
  filter (fun c => existsb (fun name => x_has_tag c (wq name)) names) (x_children n).
(** [if v: f(v)] *)
Definition when {A} (v : option string) (f : string -> result A) : result (option A) :=
  if truthy v then a <-? f (ostr v) ;; Ok (Some a) else Ok None.
Section Ooxml.
  Variable o : ooxml_opts.

  Definition border_property (borders : xnode) (names : list string) : result border_prop :=
    let get k := first_attr k (border_nodes names borders) in
    let color := if truthy (get "color") && negb (String.eqb (ostr (get "color")) "auto")
                 then Some ("#" ++ ostr (get "color")) else None in
    shadow <-? when (get "shadow") (lookup [("true", true); ("false", false)]) ;;
    space <-? when (get "space") (ox_float o) ;;
    sz <-? when (get "sz") (fun s => q <-? ox_float o s ;; Ok (q / 8)%Q) ;;
    let val := if truthy (get "val") then
                 let v := if String.eqb (ostr (get "val")) "nil" then "none" else ostr (get "val") in
                 Some (match dget BORDER_STYLES v with Some x => x | None => "w-" ++ v end)
               else None in
    Ok (MkBorderProp color shadow space sz val).
  Definition border_properties (borders : xnode) (mapping : list (string * list string))
    : result (list (string * border_prop)) :=
    rmap (fun m => p <-? border_property borders (snd m) ;; Ok (fst m, p)) mapping.

  (** __init__.py:638-675 _border_properties_to_styles *)
  Definition border_text (p : border_prop) : list string :=
    (match bp_val p with Some v => [v] | None => [] end ++
     match bp_sz p with Some q => [(ox_repr o q ++ "pt")%string] | None => [] end ++
     match bp_color p with Some c => [c] | None => [] end)%list.
  Definition spacing_text (p : border_prop) : string :=
    match bp_space p with Some q => ox_repr o q ++ "pt" | None => "0pt" end.
  Definition has_space (p : border_prop) : bool := match bp_space p with Some _ => true | None => false end.
  Definition no_space (p : border_prop) : bool := match bp_space p with Some q => Qeq_bool q 0 | None => true end.
  Definition shadowed (p : border_prop) : bool := match bp_shadow p with Some b => b | None => false end.
  (** [prop['sz']] may raise; the text of the others is "0pt" followed by "pt" *)
  Definition shadow_text (p : border_prop) : result string :=
    if shadowed p then match bp_sz p with Some q => Ok (ox_repr o q ++ "pt") | None => Err EKeyError end
    else Ok "0ptpt".
  Definition borders_to_styles (props : list (string * border_prop)) : result (dict string) :=
    let st := fold_left (fun st m => match border_text (snd m) with
                                     | [] => st
                                     | values => dset st (fst m) (join_space values)
                                     end) props [] in
    let st := if existsb (fun m => has_space (snd m)) props then
                let nul := forallb (fun m => no_space (snd m)) props in
                let st := dset st "border-collapse" (if nul then "collapse" else "separate") in
                if nul then st
                else dset st "border-spacing" (join_space (map (fun m => spacing_text (snd m)) props))
              else st in
    if existsb (fun m => shadowed (snd m)) props then
      texts <-? rmap (fun m => shadow_text (snd m)) props ;;
      Ok (dset st "box-shadow" (join_space texts))
    else Ok st.

  (** __init__.py:678-714 _get_table_borders, 717-741 _get_cell_borders *)
  Definition TABLE_BORDERS : list (string * list string) :=
    [("border-top", ["top"]); ("border-right", ["end"; "right"]); ("border-bottom", ["bottom"]);
     ("border-left", ["start"; "left"]); ("x-border-tr2bl", ["tr2bl"]); ("x-border-tl2br", ["tl2br"])].
  Definition CELL_BORDERS : list (string * list string) :=
    [("border-top", ["insideH"]); ("border-right", ["insideV"]); ("border-bottom", ["insideH"]);
     ("border-left", ["insideV"])].
  Definition get_borders (mapping : list (string * list string)) (borders : option xnode) : result (dict string) :=
    match borders with
    | None => Ok []
    | Some n => props <-? border_properties n mapping ;; borders_to_styles props
    end.
  Definition get_table_borders := get_borders TABLE_BORDERS.
  Definition get_cell_borders := get_borders CELL_BORDERS.

  (** __init__.py:744-765 _get_style_borders; [fuel] is what is left of the limit of the recursion *)
  Definition find_style (sheet : xnode) (id : string) : option xnode :=
    find (fun n => match x_get n (wq "styleId") with Some v => String.eqb v id | None => false end)
      (w_children "style" sheet).
  Definition x_cell (d : dict string) : dict string := map (fun kv => (("x-cell-" ++ fst kv)%string, snd kv)) d.
  Fixpoint get_style_borders (fuel : nat) (sheet : option xnode) (id : option string) : result (dict string) :=
    match fuel with
    | O => Err ERecursionError
    | S fuel' =>
        match sheet, id with
        | Some sh, Some i =>
            match find_style sh i with
            | None => Ok []
            | Some style =>
                parent_styles <-? get_style_borders fuel' sheet (w_attr ["basedOn"] "val" style) ;;
                let borders := w_first ["tblPr"; "tblBorders"] style in
                table_borders <-? get_table_borders borders ;;
                cell_borders <-? get_cell_borders borders ;;
                let child_styles := dupdate table_borders (x_cell cell_borders) in
                Ok (dupdate parent_styles child_styles)
            end
        | _, _ => Ok []
        end
    end.

  (** ooxml/types.py:50-60 StHexColor, ooxml/w_shd.py:55-58 Shd.styles *)
  Definition shd_styles (shd : option xnode) : styles :=
    match on_node (fun n => x_get n (wq "fill")) shd with
    | Some fill => if String.eqb fill "auto" then [] else [("background-color", SStr ("#" ++ fill))]
    | None => []
    end.
  (** ooxml/types.py:34-42 StTwipsMeasure, 45-50 StPageOrientation, ooxml/w_pg_sz.py:36-43 PgSz.styles *)
  Definition pg_styles (pg : option xnode) : result styles :=
    let get k := on_node (fun n => x_get n (wq k)) pg in
    size <-? match get "w", get "h" with
             | Some w, Some h => p <-? ox_page o w h ;; Ok [("x-sect-size", p)]
             | Some v, None | None, Some v => _ <-? ox_float o v ;; Ok []
             | None, None => Ok []
             end ;;
    Ok (size ++ match get "orient" with Some v => [("x-sect-orient", SStr v)] | None => [] end)%list.
  (** __init__.py:908-919: the number of columns of the section *)
  Definition sect_cols (sect : option xnode) : string :=
    match sect with
    | None => "1"
    | Some s =>
        match w_attr ["cols"] "num" s with
        | Some v => v
        | None => match w_path ["cols"; "col"] s with [] => "1" | l => py_str_int (Z.of_nat (List.length l)) end
        end
    end.

  Definition svals (d : dict string) : styles := map (fun kv => (fst kv, SStr (snd kv))) d.
  (** __init__.py:866-925 parse_tbl: the styles and the nature; the section which follows the table is
      given *)
  Definition tbl_style_id (e : xnode) : option string := w_attr ["tblPr"; "tblStyle"] "val" e.
  Definition tbl_styles (sect : option xnode) (e : xnode) : result styles :=
    style_borders <-? get_style_borders (ox_limit o) (ox_styles o) (tbl_style_id e) ;;
    table_borders <-? get_table_borders (w_first ["tblPr"; "tblBorders"] e) ;;
    let attrs := svals (dupdate style_borders table_borders) in
    let attrs := dupdate attrs (shd_styles (w_first ["tblPr"; "shd"] e)) in
    pg <-? pg_styles (on_node (w_first ["pgSz"]) sect) ;;
    let attrs := dupdate attrs pg in
    Ok (dset attrs "x-sect-cols" (SStr (sect_cols sect))).
  Definition parse_tbl (sect : option xnode) (e : xnode) : SM pstate unit :=
    st <- slift (tbl_styles sect e) ;;
    t <- slift (table_new [] (Some st) (tbl_style_id e)) ;;
    smodify (with_table (Some t)).

  (** __init__.py:927-941 parse_grid_col *)
  Definition grid_col_styles (e : xnode) : result styles :=
    v <-? lookup (x_attrs e) (wq "w") ;;
    q <-? ox_float o v ;;
    Ok [("width", SStr (ox_fixed o (q / 20)%Q ++ "pt"))].
  Definition parse_grid_col (e : xnode) : SM pstate unit :=
    st <- slift (grid_col_styles e) ;;
    s <- sget ;;
    on_table (view_update_styles Cols (ps_col s) st).

  (** __init__.py:943-1008 parse_tr *)
  Definition tr_nature (e : xnode) : result string :=
    match w_first ["trPr"; "tblHeader"] e with
    | None => Ok "body"
    | Some _ => lookup [("true", "header"); ("false", "body")] (or_default "true" (w_attr ["trPr"; "tblHeader"] "val" e))
    end.
  (** The height is looked for in w:tblHeader *)
  Definition tr_height (e : xnode) : result styles :=
    match w_first ["trPr"; "trHeight"] e with
    | None => Ok []
    | Some _ =>
        style <-? lookup [("atLeast", Some "min-height"); ("exact", Some "height"); ("auto", None)]
                    (or_default "auto" (w_attr ["trPr"; "tblHeader"] "hRule" e)) ;;
        match style with
        | None => Ok []
        | Some k =>
            q <-? ox_float o (or_default "0" (w_attr ["trPr"; "tblHeader"] "val" e)) ;;
            Ok [(k, SStr (ox_fixed o (q / 20)%Q ++ "pt"))]
        end
    end.
  Definition tr_ins (e : xnode) : styles :=
    match w_first ["trPr"; "ins"] e with
    | None => []
    | Some _ =>
        let st := [("x-ins", SBool true)] in
        let st := text_style (w_attr ["trPr"; "ins"] "id" e) "x-ins-id" st in
        let st := text_style (w_attr ["trPr"; "ins"] "author" e) "x-ins-author" st in
        text_style (w_attr ["trPr"; "ins"] "date" e) "x-ins-date" st
    end.
  Definition parse_tr (e : xnode) : SM pstate unit :=
    na <- slift (tr_nature e) ;;
    s <- sget ;;
    on_table (unit_of (view_get Rows (ps_row_pos s))) ;;;
    smodify (with_row (Some (ps_row_pos s))) ;;;
    on_table (view_set_nature Rows (ps_row_pos s) (Some na)) ;;;
    st <- slift (tr_height e) ;;
    on_table (view_update_styles Rows (ps_row_pos s) st) ;;;
    on_table (view_update_styles Rows (ps_row_pos s) (tr_ins e)).

  (** __init__.py:1010-1133 parse_tc *)
  Definition tc_width (e : xnode) : result Z := py_int (or_default "1" (w_attr ["tcPr"; "gridSpan"] "val" e)).
  Definition tc_merge (e : xnode) : option string :=
    match w_first ["tcPr"; "vMerge"] e with
    | None => None
    | Some _ => Some (or_default "continue" (w_attr ["tcPr"; "vMerge"] "val" e))
    end.
  (** [collections.Counter(...).most_common(1)\[0\]\[0\]]: of the most frequent values, the first met *)
  Definition jc_eqb (a b : option string) : bool :=
    match a, b with Some a, Some b => String.eqb a b | None, None => true | _, _ => false end.
  Definition jc_count (l : list (option string)) (a : option string) : nat := List.length (filter (jc_eqb a) l).
  Definition most_common (l : list (option string)) : result (option string) :=
    match l with
    | [] => Err EIndexError
    | a :: l' => Ok (fold_left (fun best b => if Nat.ltb (jc_count l best) (jc_count l b) then b else best) l' a)
    end.
  Definition VALIGN_W : dict string := [("top", "top"); ("center", "middle"); ("bottom", "bottom"); ("both", "w-both")].
  Definition ALIGN_W : dict string :=
    [("start", "left"); ("end", "right"); ("left", "left"); ("right", "right"); ("center", "center");
     ("both", "justify"); ("distribute", "justify")].
  Definition tc_valign (e : xnode) : result styles :=
    match w_first ["tcPr"; "vAlign"] e with
    | None => Ok []
    | Some _ =>
        v <-? lookup VALIGN_W (or_default "top" (w_attr ["tcPr"; "vAlign"] "val" e)) ;;
        Ok [("vertical-align", SStr v)]
    end.
  Definition tc_align (e : xnode) : result styles :=
    jc <-? most_common (map (w_attr ["pPr"; "jc"] "val") (w_children "p" e)) ;;
    match jc with
    | None => Ok []
    | Some jc => v <-? lookup ALIGN_W jc ;; Ok [("align", SStr v)]
    end.
  (** __init__.py:1114-1118: the paragraphs and the tables, without their tails *)
  Definition tc_content (e : xnode) : list xnode :=
    map (fun n => x_set_tail n None) (filter (fun c => x_has_tag c (wq "p") || x_has_tag c (wq "tbl")) (x_children e)).
  (** [.//w:name] *)
  Fixpoint w_inside (name : string) (n : xnode) : bool :=
    match n with
    | XElem _ _ _ children _ => existsb (fun c => x_has_tag c (wq name) || w_inside name c) children
    | _ => false
    end.
  Definition tc_empty (e : xnode) : bool :=
    String.eqb (get_content_text (CList (map CNode (tc_content e)))) "" &&
    negb (w_inside "drawing" e) && negb (w_inside "pict" e).
  Definition tc_styles (e : xnode) : result styles :=
    let st := shd_styles (w_first ["tcPr"; "shd"] e) in
    va <-? tc_valign e ;;
    let st := dupdate st va in
    al <-? tc_align e ;;
    let st := dupdate st al in
    borders <-? get_table_borders (w_first ["tcPr"; "tcBorders"] e) ;;
    let st := dupdate st (svals borders) in
    Ok (if tc_empty e then dset st "x-cell-empty" (SStr "true") else st).
  Definition add_col (n : Z) (s : pstate) : pstate :=
    MkPState (ps_depth s) (ps_col s + n) (ps_row_pos s) (ps_row s) (ps_table s).
  Definition put_tc (e : xnode) (width : Z) : SM pstate unit :=
    st <- slift (tc_styles e) ;;
    s <- sget ;;
    match ps_row s with
    | None => sraise EAttributeError
    | Some r => on_table (insert_cell Rows r (CList (map CNode (tc_content e))) (Some st) None width 1)
    end.
  Definition parse_tc (e : xnode) : SM pstate unit :=
    width <- slift (tc_width e) ;;
    smodify (add_col (width - 1)) ;;;
    match tc_merge e with
    | None => put_tc e width
    | Some m =>
        if String.eqb m "continue" then
          s <- sget ;;
          match ps_row s with
          | None => sraise EAttributeError
          | Some r => on_table (table_expand (PTuple [PInt (ps_col s); PInt (r - 1)]) 0 1 None)
          end
        else if String.eqb m "restart" then put_tc e width
        else sraise ENotImplementedError
    end.

  (** __init__.py:807-864 parse_table: the body of the loop, and the loop *)
  Definition ox_start (sect : option xnode) (e : xnode) : SM pstate unit :=
    let tag := ostr (x_tag e) in
    if String.eqb tag (wq "tbl") then parse_tbl sect e
    else if String.eqb tag (wq "tblGrid") then sret tt
    else if String.eqb tag (wq "gridCol") then smodify next_col ;;; parse_grid_col e
    else if String.eqb tag (wq "tr") then smodify next_row ;;; parse_tr e
    else if String.eqb tag (wq "tc") then smodify next_col ;;; parse_tc e
    else sraise ENotImplementedError.
  Definition ox_end (e : xnode) : SM pstate unit :=
    if String.eqb (ostr (x_tag e)) (wq "tr") then end_row else sret tt.
  Definition ox_depth (ev : event) (d : Z) : Z :=
    if String.eqb (ostr (x_tag (ev_elem ev))) (wq "tbl") then (if ev_start ev then d + 1 else d - 1)%Z else d.
  Definition ox_event (sect : option xnode) (ev : event) : SM pstate unit :=
    smodify (fun s => with_depth (ox_depth ev (ps_depth s)) s) ;;;
    s <- sget ;;
    if (1 <? ps_depth s)%Z then sret tt
    else if ev_start ev then ox_start sect (ev_elem ev)
    else ox_end (ev_elem ev).
  Definition ox_elements : list string := map wq ["tbl"; "tblGrid"; "gridCol"; "tr"; "tc"].
  Definition ox_parse_table (sect : option xnode) (e : xnode) : result table :=
    let (s, r) := siter (ox_event sect) (walk ox_elements None e) pstate_reset in
    _ <-? r ;;
    match ps_table s with Some t => Ok t | None => Err EAttributeError end.
End Ooxml.
