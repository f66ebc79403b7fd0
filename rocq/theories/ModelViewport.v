(** Model of the viewport of the Qt painter, Patro/GraphicEngine/Painter/QtPainter.py: ViewportArea
    (475-658), the slots of QtQuickPaintedSceneItem (663-822) and the grid (251-305), over the real
    numbers.

    A scene counts by its attribute bounding_box, which its maker sets (or not), and by having items
    or not (Scene.py 108: __len__).  Intervals come from a library which is not part of the sources:
    center is the middle, size the lengths, the constructor takes any bounds.  QPointF is a vector.
    [NotANumber] stands for the infinities and the nan of numpy. *)
From Coq Require Import Reals List ZArith Bool.
From Verif Require Import Base ModelVector ModelLine.
Import ListNotations.
Local Open Scope R_scope.

Record scene := Scene { sc_box : option box; sc_empty : bool }.

(** 484-494: the attributes; [_translation] (588) does not exist in the beginning *)
Record viewport := Viewport {
  v_scene : option scene; v_size : option vec; v_scale : R; v_center : option vec;
  v_area : option box; v_translation : option vec }.
Definition new_viewport : viewport := Viewport None None 1 None None None.

(** The state after a call, and what it returns or raises. *)
Definition call (A : Type) := (viewport * result A)%type.

(** 578-591: _update_viewport_area; 561-562: scale_mm_by_px *)
Definition update_viewport_area (v : viewport) : call unit :=
  match v_size v with
  | None => (v, Raise TypeError)
  | Some size =>
      if Reqb (v_scale v) 0 then (v, Raise ZeroDivisionError)
      else match v_center v with
      | None => (v, Raise TypeError)
      | Some c =>
          let dx := vx size / 2 * (1 / v_scale v) in
          let dy := vy size / 2 * (1 / v_scale v) in
          let area := Box (Itv (vx c - dx) (vx c + dx)) (Itv (vy c - dy) (vy c + dy)) in
          (Viewport (v_scene v) (v_size v) (v_scale v) (v_center v) (Some area)
                    (Some (vneg (V (inf (bx area)) (sup (by_ area))))), Ok tt)
      end
  end.

(** 522-528: the setter of viewport_size; 498-499: __bool__ *)
Definition set_viewport_size (w h : R) (v : viewport) : call unit :=
  let v := Viewport (v_scene v) (Some (V w h)) (v_scale v) (v_center v) (v_area v) (v_translation v) in
  match v_scene v with
  | Some _ => update_viewport_area v
  | None => (v, Ok tt)
  end.

(** 536-539: the setter of scene *)
Definition set_scene (s : scene) (v : viewport) : call unit :=
  (Viewport (Some s) (v_size v) (v_scale v) (v_center v) (v_area v) (v_translation v), Ok tt).

(** 612-615: zoom_at *)
Definition zoom_at (c : vec) (scale : R) (v : viewport) : call unit :=
  update_viewport_area (Viewport (v_scene v) (v_size v) scale (Some c) (v_area v) (v_translation v)).

(** The library: center and size of an Interval2D *)
Definition box_center (b : box) : vec := V ((inf (bx b) + sup (bx b)) / 2) ((inf (by_ b) + sup (by_ b)) / 2).
Definition box_size (b : box) : vec := V (sup (bx b) - inf (bx b)) (sup (by_ b) - inf (by_ b)).

(** 595-608: _compute_scale_to_fit_scene.  One quotient of numpy: None is the infinity. *)
Definition axis_scale (viewport scene : R) : result (option R) :=
  if Reqb (scene * (1 + 2 / 100)) 0 then (if Rltb 0 viewport then Ok None else Raise NotANumber)
  else Ok (Some (viewport / (scene * (1 + 2 / 100)))).
Definition argmin (a b : option R) : option R :=
  match a, b with
  | Some x, Some y => if Rltb y x then Some y else Some x
  | Some x, None => Some x
  | None, b => b
  end.
Definition compute_scale_to_fit_scene (size : option vec) (b : box) : result R :=
  match size with
  | None => Raise TypeError
  | Some s =>
      bind (axis_scale (vx s) (vx (box_size b))) (fun x =>
      bind (axis_scale (vy s) (vy (box_size b))) (fun y =>
      match argmin x y with
      | Some k => if Reqb k 0 then Raise NotANumber else Ok k
      | None => Raise NotANumber
      end))
  end.

(** 619-625: fit_scene; 542-547: scene_area *)
Definition fit_scene (v : viewport) : call unit :=
  match v_scene v with
  | None => (v, Ok tt)
  | Some s =>
      match sc_box s with
      | None => (v, Raise AttributeError)
      | Some b =>
          match compute_scale_to_fit_scene (v_size v) b with
          | Ok scale => zoom_at (box_center b) scale v
          | Raise e => (v, Raise e)
          end
      end
  end.

(** 629-634: scene_to_viewport *)
Definition scene_to_viewport (v : viewport) (p : vec) : result vec :=
  match v_translation v with
  | None => Raise AttributeError
  | Some t =>
      let point := V (vx p) (vy p) in
      let point := vadd point t in
      let point := vscale point (v_scale v) in
      Ok (V (vx point) (- vy point))
  end.

(** 638-642: viewport_to_scene (QPointF divides by zero silently) *)
Definition viewport_to_scene (v : viewport) (q : vec) : result vec :=
  let point := V (vx q) (- vy q) in
  if Reqb (v_scale v) 0 then Raise NotANumber
  else
    let point := V (vx point / v_scale v) (vy point / v_scale v) in
    match v_translation v with
    | None => Raise AttributeError
    | Some t => Ok (vsub point t)
    end.

(** 646-652: the lengths *)
Definition length_scene_to_viewport (v : viewport) (length : R) : R := length * v_scale v.
Definition length_viewport_to_scene (v : viewport) (length : R) : result R := fdiv length (v_scale v).

(** 656-659: pan_delta_to_scene *)
Definition pan_delta_to_scene (v : viewport) (d : vec) : result vec :=
  bind (fdiv 1 (v_scale v)) (fun k => Ok (V (vx d * k) (vy d * k))).

(** ** The slots of the item *)

(** bool(self._scene) of the item: an empty scene is false *)
Definition if_scene (v : viewport) (k : call unit) : call unit :=
  match v_scene v with
  | Some s => if sc_empty s then (v, Ok tt) else k
  | None => (v, Ok tt)
  end.

(** 728-737: the setter of scene, with another scene than the current one *)
Definition item_set_scene (s : scene) (v : viewport) : call unit :=
  let (v, _) := set_scene s v in fit_scene v.
(** 775-779: zoom_at_center *)
Definition item_zoom_at_center (zoom : R) (v : viewport) : call unit :=
  if_scene v (match v_center v with
              | Some c => zoom_at c zoom v
              (* the center None is unpacked at the end of the update *)
              | None =>
                  let v := Viewport (v_scene v) (v_size v) zoom None (v_area v) (v_translation v) in
                  update_viewport_area v
              end).
(** 783-788: zoom_at *)
Definition item_zoom_at (q : vec) (zoom : R) (v : viewport) : call unit :=
  if_scene v (match viewport_to_scene v q with
              | Ok p => zoom_at p zoom v
              | Raise e => (v, Raise e)
              end).
(** 792-795: fit_scene *)
Definition item_fit_scene (v : viewport) : call unit := if_scene v (fit_scene v).
(** 799-803: pan *)
Definition item_pan (d : vec) (v : viewport) : call unit :=
  if_scene v (match pan_delta_to_scene v d with
              | Raise e => (v, Raise e)
              | Ok d => match v_center v with
                        | None => (v, Raise TypeError)
                        | Some c => zoom_at (vadd c d) (v_scale v) v
                        end
              end).

(** What can happen to a viewport. *)
Inductive event :=
| Resize (w h : R)                (** 685-686: geometryChanged *)
| SetScene (s : scene)            (** of the viewport alone *)
| ItemScene (s : scene)
| ZoomAt (c : vec) (scale : R)    (** of the viewport *)
| ItemZoomAtCenter (zoom : R)
| ItemZoomAt (q : vec) (zoom : R)
| ItemFit
| ItemPan (d : vec).

Definition step (v : viewport) (e : event) : viewport :=
  fst match e with
      | Resize w h => set_viewport_size w h v
      | SetScene s => set_scene s v
      | ItemScene s => item_set_scene s v
      | ZoomAt c k => zoom_at c k v
      | ItemZoomAtCenter k => item_zoom_at_center k v
      | ItemZoomAt q k => item_zoom_at q k v
      | ItemFit => item_fit_scene v
      | ItemPan d => item_pan d v
      end.
Definition history (l : list event) : viewport := fold_left step l new_viewport.

(** ** The grid *)

(** python // of a float by a positive int, then int() *)
Definition floor (x : R) : Z := Int_part x.

(** range *)
Definition zrange (a b : Z) : list Z := map (fun k => (a + Z.of_nat k)%Z) (seq 0 (Z.to_nat (b - a))).

(** 285-297: _paint_axis_grid, the lines before the cast of their ends *)
Definition axis_grid (xinf xsup yinf ysup : R) (is_x : bool) (step : Z) : list (vec * vec) :=
  flat_map (fun i =>
    let x := IZR (i * step) in
    if Rleb xinf x && Rleb x xsup then
      [if is_x then (V x yinf, V x ysup) else (V yinf x, V ysup x)]
    else [])
  (zrange (floor (xinf / IZR step)) (floor (xsup / IZR step) + 1)).

(** int() of a float *)
Definition trunc (x : R) : Z := if Rltb x 0 then (- Int_part (- x))%Z else Int_part x.

(** 268-269: the steps; math.log10 raises on a length which is not positive.  A negative power of
    ten is a float below 10. *)
Definition grid_step (length : R) : result Z :=
  if Rltb 0 length then
    let n := trunc (ln length / ln 10) in
    Ok (if (n <? 0)%Z then 10%Z else Z.max (10 ^ n) 10)
  else Raise ValueError.
Definition small_step (step : Z) : Z := (step / 10)%Z.

(** 251-281: _paint_grid, the lines of the steps and of the small steps *)
Definition paint_grid (area : option box) : result (list (vec * vec) * list (vec * vec)) :=
  match area with
  | None => Ok ([], [])
  | Some b =>
      let x := bx b in
      let y := by_ b in
      bind (grid_step (Rmin (sup x - inf x) (sup y - inf y))) (fun step =>
      Ok (axis_grid (inf x) (sup x) (inf y) (sup y) true step ++ axis_grid (inf y) (sup y) (inf x) (sup x) false step,
          axis_grid (inf x) (sup x) (inf y) (sup y) true (small_step step) ++
          axis_grid (inf y) (sup y) (inf x) (sup x) false (small_step step)))
  end.
