(** Model of Patro/FileFormat/Dxf/Polyline.py and of the ellipses of Importer.py, over the real
    numbers. *)
From Coq Require Import Reals List Bool Arith.
From Verif Require Import Base ModelVector ModelLine ModelConic.
Import ListNotations.
Local Open Scope R_scope.
Local Open Scope result_scope.

(** Polyline.py 59-64: a vertex, without its polyline and its index; 159-161: a polyline *)
Record vertex := Vertex { v_point : vec; v_bulge : R }.
Record polyline := Polyline { pl_closed : bool; pl_vertices : list vertex }.
(** 177-178: __getitem__ of an index which is not negative *)
Definition getitem (p : polyline) (i : nat) : result vertex :=
  match nth_error (pl_vertices p) i with Some v => Ok v | None => Raise IndexError end.
(** 180-181: is_last_index *)
Definition is_last_index (p : polyline) (i : nat) : bool := Nat.eqb (S i) (length (pl_vertices p)).
(** 185-187: add *)
Definition add_vertex (p : polyline) (point : vec) (bulge : R) : polyline :=
  Polyline (pl_closed p) (pl_vertices p ++ [Vertex point bulge]).

(** 87-101: prev and next of the vertex of an index; the index -1 is the last one *)
Definition prev (p : polyline) (i : nat) : result (option vertex) :=
  match i with
  | O => if pl_closed p then v <- getitem p (length (pl_vertices p) - 1) ;; Ok (Some v) else Ok None
  | S i => v <- getitem p i ;; Ok (Some v)
  end.
Definition next (p : polyline) (i : nat) : result (option vertex) :=
  if is_last_index p i then
    if pl_closed p then v <- getitem p 0 ;; Ok (Some v) else Ok None
  else v <- getitem p (S i) ;; Ok (Some v).
(** 111-112: segment_vector; 117-118: demi_chord; 123-124: sagitta *)
Definition segment_vector (p : polyline) (i : nat) : result vec :=
  v <- getitem p i ;;
  n <- next p i ;;
  match n with Some w => Ok (vsub (v_point w) (v_point v)) | None => Raise AttributeError end.
Definition demi_chord (p : polyline) (i : nat) : result R := u <- segment_vector p i ;; Ok (magnitude u / 2).
Definition sagitta (p : polyline) (i : nat) : result R :=
  v <- getitem p i ;; l <- demi_chord p i ;; Ok (v_bulge v * l).
(** 129-151: bulge_radius, sagitta_dual, angle *)
Definition bulge_radius (p : polyline) (i : nat) : result R :=
  v <- getitem p i ;;
  if Reqb (v_bulge v) 0 then Ok 0
  else l <- demi_chord p i ;; Ok (l / 2 * (v_bulge v + 1 / v_bulge v)).
Definition sagitta_dual (p : polyline) (i : nat) : result R :=
  v <- getitem p i ;;
  if Reqb (v_bulge v) 0 then Ok 0
  else l <- demi_chord p i ;; Ok (l / 2 * (1 / v_bulge v - v_bulge v)).
Definition angle (p : polyline) (i : nat) : result R :=
  v <- getitem p i ;;
  if Reqb (v_bulge v) 0 then Ok 0
  else
    r <- bulge_radius p i ;; l <- demi_chord p i ;; q <- fdiv r l ;;
    Ok (degrees (2 * atan (q - v_bulge v))).

(** 196-200: iter_on_segment, as pairs of indices *)
Definition iter_on_segment (p : polyline) : result (list (nat * nat)) :=
  let n := length (pl_vertices p) in
  let l := map (fun i => (i, S i)) (seq 0 (n - 1)) in
  if pl_closed p then match n with O => Raise IndexError | S k => Ok (l ++ [(k, O)]) end else Ok l.

(** 204-230: geometry *)
Inductive dxf_item := ISegment (s : segment) | IArc (c : circle).
Definition lift_angle (a : R) : R := if Rltb a 0 then a + 360 else a.
Definition item_for (p : polyline) (i j : nat) : result dxf_item :=
  v <- getitem p i ;;
  w <- getitem p j ;;
  let s := Seg (v_point v) (v_point w) in
  if Reqb (v_bulge v) 0 then Ok (ISegment s)
  else
    middle <- s_center s ;;
    u <- segment_vector p i ;;
    direction <- normalise u ;;
    offset <- sagitta_dual p i ;;
    let center := vadd middle (vscale (vscale (normal direction) (sign (v_bulge v))) offset) in
    radius <- bulge_radius p i ;;
    let arc := Circ center radius None in
    start <- angle_for_point arc (v_point v) ;;
    stop <- angle_for_point arc (v_point w) ;;
    let start := lift_angle start in
    let stop := lift_angle stop in
    Ok (IArc (Circ center radius (Some (if Rltb (v_bulge v) 0 then Dom stop start else Dom start stop)))).
Definition geometry (p : polyline) : result (list dxf_item) :=
  l <- iter_on_segment p ;; traverse (fun ij => item_for p (fst ij) (snd ij)) l.

(** ** Importer.py 124-143: _on_ellipse *)
Definition on_ellipse_item (center major_axis : vec) (ratio start_param end_param : R) : result ellipse :=
  let minor_axis := vscale major_axis ratio in
  let dom := domain_from_radians start_param end_param in
  a <- orientation major_axis ;;
  if Reqb a 90 then Ok (Ell center (magnitude minor_axis) (magnitude major_axis) 0 (Some dom))
  else Ok (Ell center (magnitude major_axis) (magnitude minor_axis) a (Some dom)).
