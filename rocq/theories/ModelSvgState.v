(** Model of the render state of Patro/FileFormat/Svg/SvgFile.py, 47-172 and 239-290. *)
From Coq Require Import String Ascii List Bool Arith Reals ZArith.
From Verif Require Import Base ModelFormula ModelMeasure ModelXml ModelTransformation.
Import ListNotations.
Local Open Scope result_scope.

Section State.
Variable number : Type.
(** float and int of a text, as in 65-72: None when ValueError.  Not modelled: the texts of infinity,
    whose int raises OverflowError. *)
Variable read_number : text -> option number.

(** The value of a presentation attribute *)
Inductive value := VNone | VText (s : text) | VNumber (x : number).
(** 61-78: to_python *)
Definition to_python (v : value) : value :=
  match v with
  | VText s =>
      if text_eqb s (lit "none") then VNone
      else match read_number s with Some x => VNumber x | None => v end
  | _ => v
  end.

(** 51-52: STATES with the default values, SvgFormat.py 139-207, but for transform and style *)
Variable defaults : list (text * value).

(** A state: its attributes and the one called transform (never None) *)
Record state := State { s_attributes : list (text * value); s_transform : transformation }.
(** An item: the attributes its class has, None when they are not given, but for transform and style *)
Record item := Item { i_attributes : list (text * value); i_transform : option transformation; i_style : option text }.

(** 82-90: the constructor, without and with an item which is a state *)
Definition new_state : state := State defaults identity.
Definition clone (s : state) : state :=
  State (map (fun d => (fst d, match lookup (s_attributes s) (fst d) with Some v => to_python v | None => snd d end)) defaults)
        (s_transform s).
(** 115-126: the attributes of the item *)
Definition merge_attributes (s : state) (i : item) : state :=
  State (fold_left (fun a d => match lookup (i_attributes i) (fst d) with Some v => set_item a (fst d) (to_python v) | None => a end)
                   defaults (s_attributes s))
        (match i_transform i with Some t => mul (s_transform s) t | None => s_transform s end).
(** 129-137: the style.  A transform in the style multiplies a matrix by a text: not modelled, said to
    be a TypeError. *)
Definition merge_pair (s : state) (pair : text) : result state :=
  match map strip (split ":"%char pair) with
  | [name; v] =>
      let name := replace (lit "-") (lit "_") name in
      if text_eqb name (lit "transform") then Raise TypeError
      else Ok (State (set_item (s_attributes s) name (to_python (VText v))) (s_transform s))
  | _ => Raise ValueError
  end.
Fixpoint merge_pairs (s : state) (pairs : list text) : result state :=
  match pairs with
  | [] => Ok s
  | p :: pairs => s <- merge_pair s p ;; merge_pairs s pairs
  end.
(** 113-139: merge *)
Definition merge (s : state) (i : item) : result state :=
  let s := merge_attributes s i in
  match i_style i with
  | Some style => merge_pairs s (split ";"%char style)
  | None => Ok s
  end.

(** 148-172: the stack.  pop is never called. *)
Definition stack := list state.
Definition top (l : stack) : result state := match l with s :: _ => Ok s | [] => Raise IndexError end.
Definition push (l : stack) (i : item) : result stack := s <- top l ;; s <- merge (clone s) i ;; Ok (s :: l).

(** The tree: groups, graphic items, other elements *)
Inductive node := Group (i : item) (l : list node) | Graphic (i : item) | Other.
(** 264-290: on_root, on_group, on_graphic_item; 374-376: the state of each item, in document order *)
Section Walk.
Variable on_node : stack -> node -> result (stack * list (item * state)).
Fixpoint on_nodes (st : stack) (l : list node) : result (stack * list (item * state)) :=
  match l with
  | [] => Ok (st, [])
  | n :: l =>
      r <- on_node st n ;;
      q <- on_nodes (fst r) l ;;
      Ok (fst q, snd r ++ snd q)
  end.
End Walk.
Fixpoint on_node (st : stack) (n : node) : result (stack * list (item * state)) :=
  match n with
  | Other => Ok (st, [])
  | Graphic i => s <- top st ;; s <- merge (clone s) i ;; Ok (st, [(i, s)])
  | Group i l => st <- push st i ;; on_nodes on_node st l
  end.
Definition on_root (l : list node) : result (list (item * state)) :=
  r <- on_nodes on_node [new_state] l ;; Ok (snd r).
End State.

(** SvgFormat.py 139-207: the presentation attributes and their defaults, with integers as numbers *)
Definition presentation : list (text * value Z) := [
  (lit "alignment_baseline", VNone Z);
  (lit "baseline_shift", VNone Z);
  (lit "clip", VNone Z);
  (lit "clip_path", VNone Z);
  (lit "clip_rule", VNone Z);
  (lit "color", VNone Z);
  (lit "color_interpolation", VNone Z);
  (lit "color_interpolation_filters", VNone Z);
  (lit "color_profile", VNone Z);
  (lit "color_rendering", VNone Z);
  (lit "cursor", VNone Z);
  (lit "direction", VNone Z);
  (lit "display", VNone Z);
  (lit "dominant_baseline", VNone Z);
  (lit "enable_background", VNone Z);
  (lit "fill", VNone Z);
  (lit "fill_opacity", VNumber Z 1%Z);
  (lit "fill_rule", VText Z (lit "nonzero"));
  (lit "flood_color", VNone Z);
  (lit "flood_opacity", VNone Z);
  (lit "font_family", VNone Z);
  (lit "font_size", VNone Z);
  (lit "font_size_adjust", VNone Z);
  (lit "font_stretch", VNone Z);
  (lit "font_style", VNone Z);
  (lit "font_variant", VNone Z);
  (lit "font_weight", VNone Z);
  (lit "glyph_orientation_horizontal", VNone Z);
  (lit "glyph_orientation_vertical", VNone Z);
  (lit "image_rendering", VNone Z);
  (lit "kerning", VNone Z);
  (lit "letter_spacing", VNone Z);
  (lit "lighting_color", VNone Z);
  (lit "marker_end", VNone Z);
  (lit "marker_mid", VNone Z);
  (lit "marker_start", VNone Z);
  (lit "mask", VNone Z);
  (lit "opacity", VNumber Z 1%Z);
  (lit "overflow", VNone Z);
  (lit "paint_order", VNone Z);
  (lit "pointer_events", VNone Z);
  (lit "shape_rendering", VNone Z);
  (lit "stop_color", VNone Z);
  (lit "stop_opacity", VNone Z);
  (lit "stroke", VNone Z);
  (lit "stroke_dasharray", VNone Z);
  (lit "stroke_dashoffset", VNone Z);
  (lit "stroke_linecap", VText Z (lit "butt"));
  (lit "stroke_linejoin", VText Z (lit "miter"));
  (lit "stroke_miterlimit", VNumber Z 4%Z);
  (lit "stroke_opacity", VNumber Z 1%Z);
  (lit "stroke_width", VNumber Z 1%Z);
  (lit "text_anchor", VNone Z);
  (lit "text_decoration", VNone Z);
  (lit "text_rendering", VNone Z);
  (lit "unicode_bidi", VNone Z);
  (lit "vector_effect", VNone Z);
  (lit "visibility", VNone Z);
  (lit "word_spacing", VNone Z);
  (lit "writing_mode", VNone Z)
].
Definition integer_of (s : text) : option Z := match int_parse s with Ok z => Some z | Raise _ => None end.
