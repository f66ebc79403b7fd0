(** Model of Patro/GraphicEngine/GraphicScene/Scene.py and GraphicItemMixin.py, of the loop of
    Painter/Painter.py and of its class Tiler.

    These modules cannot be imported as they are (Scene.py line 403 is a syntax error, GraphicItemMixin.py
    imports the package Path, uses the name GraphicScene and calls list with three arguments in
    annotations): the model is of the code without these errors. *)
From Coq Require Import String Ascii List Bool Arith ZArith Reals.
From Flocq Require Import Core.
From Verif Require Import Base ModelFormula ModelMeasure ModelVector ModelTransformation ModelLine.
Import ListNotations.
Local Open Scope result_scope.

(** ** Dictionaries with integer keys, in order of insertion *)
Section Dict.
Context {A : Type}.
Fixpoint dict_get (l : list (nat * A)) (k : nat) : option A :=
  match l with [] => None | (i, x) :: l => if Nat.eqb i k then Some x else dict_get l k end.
Fixpoint dict_set (l : list (nat * A)) (k : nat) (v : A) : list (nat * A) :=
  match l with [] => [(k, v)] | (i, x) :: l => if Nat.eqb i k then (i, v) :: l else (i, x) :: dict_set l k v end.
Definition dict_pop (l : list (nat * A)) (k : nat) : list (nat * A) := filter (fun p => negb (Nat.eqb (fst p) k)) l.
End Dict.

(** sorted with a key, stable: insertion from the right *)
Section Sorted.
Context {A : Type}.
Variable key : A -> R.
Fixpoint insert_sorted (x : A) (l : list A) : list A :=
  match l with [] => [x] | y :: l' => if Rleb (key x) (key y) then x :: l else y :: insert_sorted x l' end.
Fixpoint sort_by (l : list A) : list A := match l with [] => [] | x :: l => insert_sorted x (sort_by l) end.
End Sorted.

(** ** Positions: a Vector2D, the name of a coordinate, or something else *)
Inductive position := PVector (v : vec) | PName (name : text) | PNumber (x : R).
(** Scene.py 154-157: _coordinates *)
Definition coordinates := list (text * vec).
(** Scene.py 171-181: cast_position; the local variable is not set when the position is something else.
    A coordinate whose position is itself a name is not modelled. *)
Definition cast_position (t : transformation) (c : coordinates) (p : position) : result vec :=
  match p with
  | PName name => match lookup c name with Some v => Ok (apply t v) | None => Raise KeyError end
  | PVector v => Ok (apply t v)
  | PNumber _ => Raise UnboundLocalError
  end.
(** GraphicItemMixin.py 196-309: the positions of an item; [positions] of an item with one position is
    this position, not a list: a loop on it is a loop on the characters or on the coordinates *)
Inductive item_positions := POne (p : position) | PMany (l : list position).
Definition loop_positions (p : item_positions) : list position :=
  match p with
  | PMany l => l
  | POne (PName name) => map (fun c => PName [c]) name
  | POne (PVector v) => [PNumber (vx v); PNumber (vy v)]
  | POne (PNumber x) => [PNumber x]
  end.
(** GraphicItemMixin.py 125-127: casted_positions *)
Definition casted_positions (t : transformation) (c : coordinates) (p : item_positions) : result (list vec) :=
  traverse (cast_position t c) (loop_positions p).

(** ** Items and scenes *)
Section Scene.
(** The class and the arguments of an item, its geometry, the box of a geometry and its method
    distance_to_point, which can return None *)
Variables shape geometry : Type.
Variable get_geometry : coordinates -> shape -> result geometry.
Variable geometry_box : geometry -> box.
Variable geometry_distance : geometry -> vec -> result (option R).
(** The order in which the index gives what it finds *)
Variable arrange : list nat -> list nat.

(** GraphicItemMixin.py 62-73 *)
Record item := Item {
  i_shape : shape; i_user_data : option nat; i_z_value : R; i_visible : bool; i_selected : bool;
  i_dirty : bool; i_geometry : option geometry; i_box : option box }.
Definition new_item (s : shape) (u : option nat) : item := Item s u 0 true false true None None.
(** 92-114 *)
Definition set_z_value (it : item) (z : R) : item := Item (i_shape it) (i_user_data it) z (i_visible it) (i_selected it) (i_dirty it) (i_geometry it) (i_box it).
Definition set_visible (it : item) (b : bool) : item := Item (i_shape it) (i_user_data it) (i_z_value it) b (i_selected it) (i_dirty it) (i_geometry it) (i_box it).
Definition set_selected (it : item) (b : bool) : item := Item (i_shape it) (i_user_data it) (i_z_value it) (i_visible it) b (i_dirty it) (i_geometry it) (i_box it).
(** 135-142: the setter of dirty *)
Definition set_dirty (it : item) (b : bool) : item :=
  if b then Item (i_shape it) (i_user_data it) (i_z_value it) (i_visible it) (i_selected it) true (i_geometry it) (i_box it)
  else Item (i_shape it) (i_user_data it) (i_z_value it) (i_visible it) (i_selected it) true None None.
(** 152-157: the property geometry *)
Definition item_geometry (c : coordinates) (it : item) : result (item * geometry) :=
  match i_geometry it with
  | Some g => Ok (it, g)
  | None =>
      g <- get_geometry c (i_shape it) ;;
      Ok (Item (i_shape it) (i_user_data it) (i_z_value it) (i_visible it) (i_selected it) false (Some g) (i_box it), g)
  end.
(** 146-150, 166-167: the property bounding_box *)
Definition item_box (c : coordinates) (it : item) : result (item * box) :=
  match i_box it with
  | Some b => Ok (it, b)
  | None =>
      p <- item_geometry c it ;;
      let (it, g) := p in
      let b := geometry_box g in
      Ok (Item (i_shape it) (i_user_data it) (i_z_value it) (i_visible it) (i_selected it) (i_dirty it) (i_geometry it) (Some b), b)
  end.

(** Scene.py 86-98.  The identity of an item is its rank: no item is ever deleted (see remove_item).
    [s_index] is the content of the spatial index, [s_boxes] is _item_bounding_box_cache. *)
Record scene := Scene {
  s_coordinates : coordinates; s_items : list (nat * item); s_next : nat; s_users : list (nat * list nat);
  s_index : list (nat * box); s_boxes : list (nat * box) }.
Definition new_scene : scene := Scene [] [] 0 [] [] [].
Definition with_items (s : scene) (l : list (nat * item)) : scene := Scene (s_coordinates s) l (s_next s) (s_users s) (s_index s) (s_boxes s).
Definition with_coordinates (s : scene) (c : coordinates) : scene := Scene c (s_items s) (s_next s) (s_users s) (s_index s) (s_boxes s).
(** 154-162: add_coordinate, remove_coordinate *)
Definition add_coordinate (s : scene) (name : text) (v : vec) : scene := with_coordinates s (set_item (s_coordinates s) name v).
Definition remove_coordinate (s : scene) (name : text) : scene * option exn :=
  match lookup (s_coordinates s) name with
  | Some _ => (with_coordinates s (filter (fun p => negb (text_eqb (fst p) name)) (s_coordinates s)), None)
  | None => (s, Some KeyError)
  end.
(** 185-200: add_item *)
Definition add_item (s : scene) (sh : shape) (u : option nat) : scene :=
  let id := s_next s in
  Scene (s_coordinates s) (s_items s ++ [(id, new_item sh u)]) (S id)
    (match u with
     | Some u => dict_set (s_users s) u (match dict_get (s_users s) u with Some l => l | None => [] end ++ [id])
     | None => s_users s end)
    (s_index s) (s_boxes s).
(** 204-211: remove_item; update_rtree has no argument *)
Definition remove_item (s : scene) (id : nat) : scene * option exn := (s, Some TypeError).
(** 215-217 *)
Definition item_for_user_data (s : scene) (u : nat) : option (list nat) := dict_get (s_users s) u.
(** 141-150: selected_items, unselect_items *)
Definition selected_items (s : scene) : list nat := map fst (filter (fun p => i_selected (snd p)) (s_items s)).
Definition unselect_items (s : scene) : scene := with_items s (map (fun p => (fst p, if i_selected (snd p) then set_selected (snd p) false else snd p)) (s_items s)).

(** 127-137: z_value_iter *)
Fixpoint z_add (m : list (R * list nat)) (z : R) (id : nat) : list (R * list nat) :=
  match m with
  | [] => [(z, [id])]
  | (y, l) :: m => if Reqb y z then (y, l ++ [id]) :: m else (y, l) :: z_add m z id
  end.
Definition z_map (l : list (nat * item)) : list (R * list nat) :=
  fold_left (fun m p => if i_visible (snd p) then z_add m (i_z_value (snd p)) (fst p) else m) l [].
Definition z_value_iter (s : scene) : list nat := flat_map snd (sort_by fst (z_map (s_items s))).

(** Painter.py 109-119: paint; [paint_method] is the method of the class of an item, None when the class
    is not in __paint_method__.  A KeyError in a method is caught too. *)
Section Paint.
Variable out : Type.
Variable paint_method : item -> option (item -> result out).
Fixpoint paint_loop (items : list (nat * item)) (l : list nat) : list out * option exn :=
  match l with
  | [] => ([], None)
  | id :: l =>
      match dict_get items id with
      | None => ([], Some KeyError)
      | Some it =>
          match paint_method it with
          | None => ([], Some NotImplementedError)
          | Some f =>
              match f it with
              | Raise KeyError => ([], Some NotImplementedError)
              | Raise e => ([], Some e)
              | Ok o => let (os, e) := paint_loop items l in (o :: os, e)
              end
          end
      end
  end.
Definition paint (s : scene) : list out * option exn := paint_loop (s_items s) (z_value_iter s).
End Paint.

(** ** The index.  [rtree]: insert adds an entry, delete removes an entry with this identity and this
    box, intersection gives the identities of the boxes which meet a box *)
Definition box_eqb (a b : box) : bool :=
  Reqb (inf (bx a)) (inf (bx b)) && Reqb (sup (bx a)) (sup (bx b)) && Reqb (inf (by_ a)) (inf (by_ b)) && Reqb (sup (by_ a)) (sup (by_ b)).
Fixpoint index_delete (l : list (nat * box)) (id : nat) (b : box) : list (nat * box) :=
  match l with
  | [] => []
  | (i, c) :: l => if Nat.eqb i id && box_eqb c b then l else (i, c) :: index_delete l id b
  end.
Definition meet_interval (a b : interval) : bool := Rleb (inf a) (sup b) && Rleb (inf b) (sup a).
Definition meet (a b : box) : bool := meet_interval (bx a) (bx b) && meet_interval (by_ a) (by_ b).
Definition intersection (l : list (nat * box)) (b : box) : list nat := arrange (map fst (filter (fun p => meet (snd p) b) l)).

(** Scene.py 228-238: update_rtree_item, with insert *)
Definition update_item (s : scene) (id : nat) (it : item) : scene * option exn :=
  let index := match dict_get (s_boxes s) id with Some b => index_delete (s_index s) id b | None => s_index s end in
  let boxes := dict_pop (s_boxes s) id in
  match item_box (s_coordinates s) it with
  | Raise e => (Scene (s_coordinates s) (s_items s) (s_next s) (s_users s) index boxes, Some e)
  | Ok (it, b) =>
      (Scene (s_coordinates s) (dict_set (s_items s) id it) (s_next s) (s_users s) (index ++ [(id, b)]) (boxes ++ [(id, b)]), None)
  end.
(** 221-224: update_rtree *)
Fixpoint update_loop (l : list nat) (s : scene) : scene * option exn :=
  match l with
  | [] => (s, None)
  | id :: l =>
      match dict_get (s_items s) id with
      | None => (s, Some KeyError)
      | Some it =>
          if i_dirty it then
            let (s, e) := update_item s id it in
            match e with Some e => (s, Some e) | None => update_loop l s end
          else update_loop l s
      end
  end.
Definition update_rtree (s : scene) : scene * option exn := update_loop (map fst (s_items s)) s.

(** 245-252: item_in_bounding_box; the generator of rtree is always true *)
Definition item_in_bounding_box (s : scene) (b : box) : list nat := intersection (s_index s) b.
(** 256-272: item_at *)
Definition square (p : vec) (radius : R) : box := Box (Itv (vx p - radius) (vx p + radius))%R (Itv (vy p - radius) (vy p + radius))%R.
Fixpoint at_loop (s : scene) (p : vec) (radius : R) (l : list nat) : scene * result (list (R * nat)) :=
  match l with
  | [] => (s, Ok [])
  | id :: l =>
      match dict_get (s_items s) id with
      | None => (s, Raise KeyError)
      | Some it =>
          match item_geometry (s_coordinates s) it with
          | Raise NotImplementedError => at_loop s p radius l
          | Raise e => (s, Raise e)
          | Ok (it, g) =>
              let s := with_items s (dict_set (s_items s) id it) in
              match geometry_distance g p with
              | Raise NotImplementedError => at_loop s p radius l
              | Raise e => (s, Raise e)
              | Ok None => at_loop s p radius l
              | Ok (Some d) =>
                  let (s, r) := at_loop s p radius l in
                  (s, m <- r ;; Ok (if Rleb d radius then (d, id) :: m else m))
              end
          end
      end
  end.
Definition item_at (s : scene) (p : vec) (radius : R) : scene * result (list (R * nat)) :=
  let (s, r) := at_loop s p radius (item_in_bounding_box s (square p radius)) in
  (s, m <- r ;; Ok (sort_by fst m)).

(** ** Histories *)
Inductive op :=
| AddItem (sh : shape) (u : option nat) | RemoveItem (id : nat)
| AddCoordinate (name : text) (v : vec) | RemoveCoordinate (name : text)
| SetDirty (id : nat) (b : bool) | SetZ (id : nat) (z : R) | SetVisible (id : nat) (b : bool) | SetSelected (id : nat) (b : bool)
| ReadGeometry (id : nat) | ReadBox (id : nat) | Update | ItemAt (p : vec) (radius : R).
Definition on_item (s : scene) (id : nat) (f : item -> item) : scene :=
  match dict_get (s_items s) id with Some it => with_items s (dict_set (s_items s) id (f it)) | None => s end.
Definition step (s : scene) (o : op) : scene :=
  match o with
  | AddItem sh u => add_item s sh u
  | RemoveItem id => fst (remove_item s id)
  | AddCoordinate name v => add_coordinate s name v
  | RemoveCoordinate name => fst (remove_coordinate s name)
  | SetDirty id b => on_item s id (fun it => set_dirty it b)
  | SetZ id z => on_item s id (fun it => set_z_value it z)
  | SetVisible id b => on_item s id (fun it => set_visible it b)
  | SetSelected id b => on_item s id (fun it => set_selected it b)
  | ReadGeometry id => on_item s id (fun it => match item_geometry (s_coordinates s) it with Ok (it, _) => it | Raise _ => it end)
  | ReadBox id => on_item s id (fun it => match item_box (s_coordinates s) it with Ok (it, _) => it | Raise _ => it end)
  | Update => fst (update_rtree s)
  | ItemAt p radius => fst (item_at s p radius)
  end.
Definition run (s : scene) (l : list op) : scene := fold_left step l s.
End Scene.

(** ** bezier_path, Scene.py 521-548.  [method] makes an item from a list of points: it takes exactly
    degree + 1 points, otherwise the constructor has too few or too many arguments. *)
Section BezierPath.
Variables point item : Type.
Variable make : nat -> list point -> item.
Definition bezier_method (degree : nat) (points : list point) : result item :=
  if Nat.eqb (length points) (degree + 1) then Ok (make degree points) else Raise TypeError.
(** 541-548: the items made before an exception are in the scene *)
Fixpoint bezier_loop (points : list point) (degree : nat) (l : list nat) : list item * option exn :=
  match l with
  | [] => ([], None)
  | i :: l =>
      let j := degree * i in
      match bezier_method degree (firstn (degree + 1) (skipn j points)) with
      | Raise e => ([], Some e)
      | Ok it => let (its, e) := bezier_loop points degree l in (it :: its, e)
      end
  end.
(** [n % degree] of python for n = len - 1, which is -1 for no point *)
Definition bezier_path (points : list point) (degree : nat) : list item * option exn :=
  if Nat.eqb degree 1 || Nat.eqb degree 2 || Nat.eqb degree 3 then
    let n := (Z.of_nat (length points) - 1)%Z in
    if (n mod Z.of_nat degree =? 0)%Z then bezier_loop points degree (seq 0 (length points / degree))
    else ([], Some ValueError)
  else ([], Some ValueError).
End BezierPath.

(** ** Tiler, Painter.py 37-72 *)
Section Tiler.
Local Open Scope R_scope.
Definition ilength (i : interval) : R := sup i - inf i.
(** 45: bounding_box.enlarge, of the library, grows both intervals *)
Definition enlarge (b : box) (m : R) : box := Box (Itv (inf (bx b) - m) (sup (bx b) + m)) (Itv (inf (by_ b) - m) (sup (by_ b) + m)).
(** 50-54: area_vector *)
Definition tile_area (width height margin : R) : vec :=
  let paper_margin := (margin + 2) / 10 in
  V (width / 10 - paper_margin * 2) (height / 10 - paper_margin * 2).
(** 56-57: the numbers of columns and rows; int(ceil(x)); a null area raises ZeroDivisionError *)
Definition tile_columns (b : box) (a : vec) : nat := Z.to_nat (Zceil (ilength (bx b) / vx a)).
Definition tile_rows (b : box) (a : vec) : nat := Z.to_nat (Zceil (ilength (by_ b) / vy a)).
(** 65-72: the product of vectors of line 67 is by coordinates: the row moves the tile along x *)
Definition tile (b : box) (a : vec) (r c : nat) : box :=
  let x := inf (bx b) + vx a * INR r in
  let y := inf (by_ b) + vy a * INR c in
  Box (Itv x (x + vx a)) (Itv y (y + vy a)).
Definition tiles (b : box) (a : vec) : list (box * nat * nat) :=
  flat_map (fun r => map (fun c => (tile b a r c, r, c)) (seq 0 (tile_columns b a))) (seq 0 (tile_rows b a)).
End Tiler.

(** ** The kinds of items a scene makes, Scene.py 69-81 (__ITEM_CTOR__) and 391-420 (add_as_path), and the
    methods of the painters; a method of the base class Painter.py 149-180 raises NotImplementedError *)
Inductive kind := KCircle | KCubicBezier | KEllipse | KImage | KPath | KPolygon | KPolyline | KQuadraticBezier | KRectangle | KSegment | KText.
Inductive painter := SvgPainter | TexPainter | DxfPainter | PdfPainter | MplPainter | QtPainter.
(** Painter.py 149-180: all but RectangleItem, which is not in __paint_method__ *)
Definition base_method (k : kind) : bool := match k with KRectangle => false | _ => true end.
(** SvgPainter.py 107-143, TexPainter.py 114-150, DxfPainter.py 123-155, PdfPainter.py 130-160,
    MplPainter.py 94-125, QtPainter.py 301-475 *)
Definition own_method (p : painter) (k : kind) : bool :=
  match p, k with
  | _, KRectangle => false
  | QtPainter, _ => true
  | _, (KText | KCircle | KSegment | KCubicBezier) => true
  | _, _ => false
  end.
(** what a painter does with an item, when its own method succeeds *)
Definition painter_method {A B} (kind_of : A -> kind) (draw : A -> B) (p : painter) (a : A) : option (A -> result B) :=
  if own_method p (kind_of a) then Some (fun a => Ok (draw a))
  else if base_method (kind_of a) then Some (fun _ => Raise NotImplementedError) else None.

(** ** Scenes of segments, GraphicItem.py 207-225 *)
Definition segment_shape : Type := position * position.
Definition segment_geometry (t : transformation) (c : coordinates) (sh : segment_shape) : result segment :=
  l <- casted_positions t c (PMany [fst sh; snd sh]) ;;
  match l with [p; q] => Ok (Seg p q) | _ => Raise TypeError end.
(** Primitive.py 250: the box of the points *)
Definition segment_box (s : segment) : box := match bounding_box_from_points [s_p0 s; s_p1 s] with Some b => b | None => Box (Itv 0 0) (Itv 0 0) end.
Definition segment_distance (s : segment) (p : vec) : result (option R) := d <- segment_distance_to_point s p ;; Ok (Some d).
