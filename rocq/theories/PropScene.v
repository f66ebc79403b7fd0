(** Scenes: painting order, spatial index, picking, paths, tiles. *)
From Coq Require Import String Ascii List Bool Arith ZArith Reals Sorted Permutation Lia Lra.
From Flocq Require Import Core.
From Verif Require Import Base ModelFormula ModelMeasure ModelVector SpecVector ModelTransformation ModelLine SpecLine ModelScene SpecScene ProofVector ProofScene ProofScene2 ProofScene3 ProofScene4.
Import ListNotations.

Section Scene.
Variables shape geometry : Type.
Variable get_geometry : coordinates -> shape -> result geometry.
Variable geometry_box : geometry -> box.
Variable geometry_distance : geometry -> vec -> result (option R).
Variable arrange : list nat -> list nat.
Notation reached := (run shape geometry get_geometry geometry_box geometry_distance arrange (new_scene shape geometry)).
Notation update := (update_rtree shape geometry get_geometry geometry_box).
Let keys h : NoDup (map fst (s_items _ _ (reached h))) := wf_nodup _ _ _ (run_wf _ _ _ _ _ _ h _ (new_wf _ _)).

(** C46: after any history *)
Theorem C46_order : forall h, painting_order _ _ (s_items _ _ (reached h)) (z_value_iter _ _ (reached h)).
Proof. exact (fun h => order_ok _ _ _ (keys h)). Qed.
Theorem C46_once : forall h, Permutation (z_value_iter _ _ (reached h)) (map fst (filter (fun p => i_visible _ _ (snd p)) (s_items _ _ (reached h)))).
Proof. exact (fun h => once_ok _ _ _ (keys h)). Qed.
Theorem C46_paint : forall out (paint_method : item shape geometry -> option (item shape geometry -> result out)) (draw : nat -> out) h,
  (forall id it, dict_get (s_items _ _ (reached h)) id = Some it -> i_visible _ _ it = true -> exists f, paint_method it = Some f /\ f it = Ok (draw id)) ->
  paint _ _ out paint_method (reached h) = (map draw (z_value_iter _ _ (reached h)), None).
Proof. exact (fun out m d h => paint_ok _ _ out m d _ (keys h)). Qed.
(** an item without a method stops the painting: the items after it are not painted *)
Theorem C46_stop : forall out (paint_method : item shape geometry -> option (item shape geometry -> result out)) (draw : nat -> out) h pre id post it,
  z_value_iter _ _ (reached h) = pre ++ id :: post ->
  (forall i j, In i pre -> dict_get (s_items _ _ (reached h)) i = Some j -> exists f, paint_method j = Some f /\ f j = Ok (draw i)) ->
  dict_get (s_items _ _ (reached h)) id = Some it -> paint_method it = None ->
  paint _ _ out paint_method (reached h) = (map draw pre, Some NotImplementedError).
Proof. exact (fun out m d h pre id post it => paint_stop _ _ out m d _ pre id post it (keys h)). Qed.

(** C47: after any history an item has at most one entry, and only items have one *)
Theorem C47_unique : forall h id, (length (entries (s_index _ _ (reached h)) id) <= 1)%nat /\ (dict_get (s_items _ _ (reached h)) id = None -> entries (s_index _ _ (reached h)) id = []).
Proof. exact (unique_ok _ _ get_geometry geometry_box geometry_distance arrange). Qed.
(** after a careful history (the geometry of an item is read after an update only, and every item is
    reset after a change of the coordinates), the index after an update is right *)
Theorem C47_careful_partial : forall h s, careful _ _ get_geometry geometry_box geometry_distance arrange (new_scene _ _) h -> update (reached h) = (s, None) ->
  indexed _ _ get_geometry geometry_box s /\ forall id, clean _ _ s id.
Proof. exact (careful_indexed _ _ get_geometry geometry_box geometry_distance arrange). Qed.
(** the geometry of a new item is read before the update: it has no entry, it is not found *)
Theorem C47_read_refuted : forall h sh u g s, get_geometry (s_coordinates _ _ (reached h)) sh = Ok g ->
  update (reached (h ++ [AddItem shape sh u; ReadGeometry shape (s_next _ _ (reached h))])) = (s, None) ->
  dict_get (s_items _ _ s) (s_next _ _ (reached h)) <> None /\ entries (s_index _ _ s) (s_next _ _ (reached h)) = [].
Proof.
  intros h sh u g s G U. rewrite run_app in U. exact (read_lost _ _ get_geometry geometry_box geometry_distance arrange _ sh u g s (run_wf _ _ _ _ _ _ h _ (new_wf _ _)) G U).
Qed.
(** an item marked as dirty keeps its old box *)
Theorem C47_stale_refuted : forall h id it b s changes, dict_get (s_items _ _ (reached h)) id = Some it -> i_box _ _ it = Some b -> Forall (change shape) changes ->
  update (reached (h ++ changes ++ [SetDirty shape id true])) = (s, None) -> entries (s_index _ _ s) id = [b].
Proof.
  intros h id it b s changes G B F U. rewrite run_app in U. exact (stale_kept _ _ get_geometry geometry_box geometry_distance arrange _ id it b s changes (run_wf _ _ _ _ _ _ h _ (new_wf _ _)) G B F U).
Qed.
(** an item cannot be removed *)
Theorem C47_remove_refuted : forall h id, remove_item _ _ (reached h) id = (reached h, Some TypeError).
Proof. reflexivity. Qed.

(** C48 *)
Theorem C48_careful_partial : (forall l, Permutation (arrange l) l) -> forall on, drawn _ geometry_box geometry_distance on -> forall h s p r,
  careful _ _ get_geometry geometry_box geometry_distance arrange (new_scene _ _) h -> update (reached h) = (s, None) ->
  (forall l, snd (item_at _ _ get_geometry geometry_distance arrange s p r) = Ok l ->
     StronglySorted (fun a b => fst a <= fst b)%R l /\ NoDup (map snd l) /\ forall d id, In (d, id) l <-> at_distance _ _ get_geometry geometry_distance s p id d /\ (d <= r)%R) /\
  ((forall g, (exists o, geometry_distance g p = Ok o) \/ geometry_distance g p = Raise NotImplementedError) -> is_ok (snd (item_at _ _ get_geometry geometry_distance arrange s p r))) /\
  fst (item_at _ _ get_geometry geometry_distance arrange s p r) = s.
Proof. exact (careful_pick _ _ get_geometry geometry_box geometry_distance arrange). Qed.
(** the items in a box are those whose box has a point in common with it *)
Theorem C48_box_partial : (forall l, Permutation (arrange l) l) -> forall h s b, (forall g, proper (geometry_box g)) -> proper b ->
  careful _ _ get_geometry geometry_box geometry_distance arrange (new_scene _ _) h -> update (reached h) = (s, None) ->
  NoDup (item_in_bounding_box _ _ arrange s b) /\
  forall id, In id (item_in_bounding_box _ _ arrange s b) <->
    exists it g, dict_get (s_items _ _ s) id = Some it /\ get_geometry (s_coordinates _ _ s) (i_shape _ _ it) = Ok g /\ share (geometry_box g) b.
Proof. exact (careful_boxes _ _ get_geometry geometry_box geometry_distance arrange). Qed.
(** an item whose geometry was read before the update is found nowhere *)
Theorem C48_read_refuted : forall h sh u g s p r l, (forall l, Permutation (arrange l) l) ->
  get_geometry (s_coordinates _ _ (reached h)) sh = Ok g ->
  update (reached (h ++ [AddItem shape sh u; ReadGeometry shape (s_next _ _ (reached h))])) = (s, None) ->
  snd (item_at _ _ get_geometry geometry_distance arrange s p r) = Ok l -> dict_get (s_items _ _ s) (s_next _ _ (reached h)) <> None /\ ~ In (s_next _ _ (reached h)) (map snd l).
Proof.
  intros h sh u g s p r l P G U H. rewrite run_app in U. exact (read_missed _ _ get_geometry geometry_box geometry_distance arrange h sh u g s p r l P G U H).
Qed.

(** C92: user data and selection *)
Theorem C92_user_data : forall h u, item_for_user_data _ _ (reached h) u =
  match map fst (filter (fun p => match i_user_data _ _ (snd p) with Some v => Nat.eqb v u | None => false end) (s_items _ _ (reached h))) with [] => None | ids => Some ids end.
Proof. exact (user_ok _ _ get_geometry geometry_box geometry_distance arrange). Qed.
Theorem C92_selected : forall h id, In id (selected_items _ _ (reached h)) <-> exists it, dict_get (s_items _ _ (reached h)) id = Some it /\ i_selected _ _ it = true.
Proof. exact (fun h id => selected_ok _ _ _ id (keys h)). Qed.
Theorem C92_unselect : forall s : scene shape geometry, selected_items _ _ (unselect_items _ _ s) = [] /\
  map (fun p => (fst p, i_shape _ _ (snd p), i_z_value _ _ (snd p), i_visible _ _ (snd p))) (s_items _ _ (unselect_items _ _ s)) = map (fun p => (fst p, i_shape _ _ (snd p), i_z_value _ _ (snd p), i_visible _ _ (snd p))) (s_items _ _ s).
Proof. exact (unselect_ok _ _). Qed.

(** C94: a painter paints the whole scene exactly when it has a method for each visible item *)
Theorem C94_painters_partial : forall out (kind_of : item shape geometry -> kind) (draw : item shape geometry -> out) p h,
  snd (paint _ _ out (painter_method kind_of draw p) (reached h)) = None <->
  forall id it, dict_get (s_items _ _ (reached h)) id = Some it -> i_visible _ _ it = true -> own_method p (kind_of it) = true.
Proof. exact (fun out k d p h => painter_ok _ _ out k d p _ (keys h)). Qed.
End Scene.
Print Assumptions C46_order.
Print Assumptions C46_once.
Print Assumptions C46_paint.
Print Assumptions C46_stop.
Print Assumptions C47_unique.
Print Assumptions C47_careful_partial.
Print Assumptions C47_read_refuted.
Print Assumptions C47_stale_refuted.
Print Assumptions C47_remove_refuted.
Print Assumptions C48_careful_partial.
Print Assumptions C48_box_partial.
Print Assumptions C48_read_refuted.
Print Assumptions C92_user_data.
Print Assumptions C92_selected.
Print Assumptions C92_unselect.
Print Assumptions C94_painters_partial.
(** which are: everything but rectangles for Qt; texts, circles, segments and cubic curves for the others *)
Theorem C94_methods_partial : forall p k, own_method p k = true <->
  (p = QtPainter /\ k <> KRectangle) \/ k = KText \/ k = KCircle \/ k = KSegment \/ k = KCubicBezier.
Proof.
  intros p k. split.
  - destruct p, k; cbn; intro H; try discriminate H; try (left; split; [reflexivity|discriminate]); auto 6.
  - intros [(-> & N)|[->|[->|[->| ->]]]]; [destruct k; try reflexivity; destruct (N eq_refl)|destruct p; reflexivity..].
Qed.
Print Assumptions C94_methods_partial.
(** no painter draws a rectangle, and only the Qt painter draws an ellipse, a polygon or a path *)
Theorem C94_rectangle_refuted : forall p, own_method p KRectangle = false.
Proof. intros []; reflexivity. Qed.
Print Assumptions C94_rectangle_refuted.

(** C48 for scenes of segments: the distances are the true ones *)
Theorem C48_segments_partial : forall t arrange, (forall l, Permutation (arrange l) l) -> forall h s p r,
  careful _ _ (segment_geometry t) segment_box segment_distance arrange (new_scene _ _) h ->
  update_rtree _ _ (segment_geometry t) segment_box (run _ _ (segment_geometry t) segment_box segment_distance arrange (new_scene _ _) h) = (s, None) ->
  exists l, item_at _ _ (segment_geometry t) segment_distance arrange s p r = (s, Ok l) /\ StronglySorted (fun a b => fst a <= fst b)%R l /\ NoDup (map snd l) /\
  forall d id, In (d, id) l <-> (exists it g, dict_get (s_items _ _ s) id = Some it /\ segment_geometry t (s_coordinates _ _ s) (i_shape _ _ it) = Ok g /\ min_distance (on_segment g) p d) /\ (d <= r)%R.
Proof. exact segment_pick. Qed.
Print Assumptions C48_segments_partial.

(** C49 *)
Theorem C49_curves_partial : forall point item (make : nat -> list point -> item) points degree m, degree = 2 \/ degree = 3 -> length points = degree * m + 1 ->
  bezier_path point item make points degree = (map (fun i => make degree (firstn (degree + 1) (skipn (degree * i) points))) (seq 0 m), None).
Proof. exact path_ok. Qed.
Print Assumptions C49_curves_partial.
Theorem C49_points : forall point (points : list point) degree i k d, k <= degree -> nth k (firstn (degree + 1) (skipn (degree * i) points)) d = nth (degree * i + k) points d.
Proof. exact chunk_nth. Qed.
Print Assumptions C49_points.
Theorem C49_number : forall point item (make : nat -> list point -> item) points degree, degree = 2 \/ degree = 3 -> (forall m, length points <> degree * m + 1) ->
  bezier_path point item make points degree = ([], Some ValueError).
Proof. exact path_bad. Qed.
Print Assumptions C49_number.
Theorem C49_degree : forall point item (make : nat -> list point -> item) points degree, degree <> 1 -> degree <> 2 -> degree <> 3 -> bezier_path point item make points degree = ([], Some ValueError).
Proof. exact path_degree. Qed.
Print Assumptions C49_degree.
(** degree 1: an error after the last segment, whatever the points *)
Theorem C49_segments_refuted : forall point item (make : nat -> list point -> item) points n, length points = S n ->
  bezier_path point item make points 1 = (map (fun i => make 1 (firstn 2 (skipn i points))) (seq 0 n), Some TypeError).
Proof. exact path_one. Qed.
Print Assumptions C49_segments_refuted.
Example C49_example : bezier_path nat (list nat) (fun _ l => l) [10; 11; 12; 13; 14] 2 = ([[10; 11; 12]; [12; 13; 14]], None) /\
  bezier_path nat (list nat) (fun _ l => l) [10; 11; 12; 13] 2 = ([], Some ValueError) /\
  bezier_path nat (list nat) (fun _ l => l) [10; 11; 12] 1 = ([[10; 11]; [11; 12]], Some TypeError) /\
  bezier_path nat (list nat) (fun _ l => l) [10; 11; 12; 13; 14; 15; 16] 3 = ([[10; 11; 12; 13]; [13; 14; 15; 16]], None).
Proof. repeat split. Qed.

(** C50 *)
Theorem C50_disjoint : forall b a, (0 < vx a)%R -> (0 < vy a)%R -> forall t r c t' r' c' p, In (t, r, c) (tiles b a) -> In (t', r', c') (tiles b a) -> inside p t -> inside p t' -> r = r' /\ c = c'.
Proof. exact disjoint_ok. Qed.
Print Assumptions C50_disjoint.
Theorem C50_size : forall b a t r c, In (t, r, c) (tiles b a) -> ilength (bx t) = vx a /\ ilength (by_ t) = vy a.
Proof. exact size_ok. Qed.
Print Assumptions C50_size.
(** as many rows as columns: the tiles cover the box *)
Theorem C50_cover_partial : forall b a, (0 < vx a)%R -> (0 < vy a)%R -> (inf (bx b) < sup (bx b))%R -> (inf (by_ b) < sup (by_ b))%R -> tile_rows b a = tile_columns b a -> covers (tiles b a) b.
Proof. exact cover_square. Qed.
Print Assumptions C50_cover_partial.
(** otherwise they never do: rows and columns are exchanged *)
Theorem C50_cover_refuted : forall b a, (0 < vx a)%R -> (0 < vy a)%R -> (inf (bx b) < sup (bx b))%R -> (inf (by_ b) < sup (by_ b))%R -> tile_rows b a <> tile_columns b a -> ~ covers (tiles b a) b.
Proof. exact cover_not. Qed.
Print Assumptions C50_cover_refuted.
(** the number of tiles is the right one *)
Theorem C50_number : forall b a, (0 < vx a)%R -> (0 < vy a)%R -> (inf (bx b) <= sup (bx b))%R -> (inf (by_ b) <= sup (by_ b))%R ->
  length (tiles b a) = (tile_rows b a * tile_columns b a)%nat /\ (ilength (bx b) <= vx a * INR (tile_columns b a))%R /\ (ilength (by_ b) <= vy a * INR (tile_rows b a))%R.
Proof. intros b a Hx Hy Bx By. split; [exact (number_ok b a)|exact (columns_ok b a Hx Hy Bx By)]. Qed.
Print Assumptions C50_number.
Lemma ceil_of x (z : Z) : (IZR z - 1 < x <= IZR z)%R -> Z.to_nat (Zceil x) = Z.to_nat z.
Proof. intro H. rewrite (Zceil_imp z x); [reflexivity|]. rewrite minus_IZR. exact H. Qed.
(** a box of 30 by 10 on sheets of 20 by 20: two columns and one row, but the second tile is above the
    first one: the right part of the box is not covered *)
(** the paper without its margin and two millimetres on each side, in centimetres *)
Theorem C50_area : forall width height margin, let a := tile_area width height margin in
  (10 * vx a = width - 2 * (margin + 2) /\ 10 * vy a = height - 2 * (margin + 2))%R.
Proof. intros. unfold a, tile_area. cbn [vx vy]. split; field. Qed.
Print Assumptions C50_area.
Example C50_example : let b := Box (Itv 0 30) (Itv 0 10) in let a := V 20 20 in
  tiles b a = [(Box (Itv 0 20) (Itv 0 20), 0%nat, 0%nat); (Box (Itv 0 20) (Itv 20 40), 0%nat, 1%nat)] /\ ~ covers (tiles b a) b.
Proof.
  cbv zeta. set (b := Box (Itv 0 30) (Itv 0 10)). set (a := V 20 20).
  assert (R : tile_rows b a = 1%nat) by (unfold tile_rows, ilength; cbn; rewrite (ceil_of _ 1); [reflexivity|lra]). assert (C : tile_columns b a = 2%nat) by (unfold tile_columns, ilength; cbn; rewrite (ceil_of _ 2); [reflexivity|lra]).
  split; [|apply C50_cover_refuted; cbn; try lra; rewrite R, C; discriminate].
  unfold tiles. rewrite R, C. cbn. unfold tile. cbn. repeat (f_equal; try lra).
Qed.

(** C93 *)
Theorem C93_many_partial : forall t c l, (forall p, In p l -> match p with PVector _ => True | PName n => lookup c n <> None | PNumber _ => False end) ->
  exists m, casted_positions t c (PMany l) = Ok m /\ length m = length l /\
  forall k p, nth_error l k = Some p -> nth_error m k = match p with PVector v => Some (apply t v) | PName n => option_map (apply t) (lookup c n) | PNumber _ => None end.
Proof. exact casted_many. Qed.
Print Assumptions C93_many_partial.
(** an item with one position: the loop is on the position itself *)
Theorem C93_vector_refuted : forall t c v, casted_positions t c (POne (PVector v)) = Raise UnboundLocalError.
Proof. exact casted_one_vector. Qed.
Print Assumptions C93_vector_refuted.
Theorem C93_name_refuted : forall t c n, match casted_positions t c (POne (PName n)) with Ok m => length m = length n | Raise e => e = KeyError end.
Proof. exact casted_one_name. Qed.
Print Assumptions C93_name_refuted.
Example C93_example : casted_positions identity [(lit "A", V 1 2)] (PMany [PName (lit "A"); PVector (V 3 4)]) = Ok [apply identity (V 1 2); apply identity (V 3 4)] /\
  casted_positions identity [(lit "foo", V 1 2)] (POne (PName (lit "foo"))) = Raise KeyError.
Proof. split; reflexivity. Qed.

(** ** A scene of two segments: the order of painting, the index, picking *)
Definition demo : transformation := identity.
Definition at_origin : segment_shape := (PVector (V 0 0), PVector (V 4 0)).
Definition named : segment_shape := (PName (lit "A"), PName (lit "B")).
Notation demo_run := (run _ _ (segment_geometry demo) segment_box segment_distance (fun l => l) (new_scene _ _)).
Definition history : list (op segment_shape) :=
  [AddItem _ at_origin (Some 7); AddItem _ named None; AddItem _ at_origin (Some 7); SetZ _ 0 5; SetVisible _ 2 false].
Example C46_example : z_value_iter _ _ (demo_run history) = [1; 0] /\ item_for_user_data _ _ (demo_run history) 7 = Some [0; 2] /\ item_for_user_data _ _ (demo_run history) 8 = None.
Proof.
  split; [|split; reflexivity]. unfold z_value_iter, z_map. cbn. unfold Reqb. destruct (Req_EM_T 5 0); [lra|]. cbn. unfold Rleb. destruct (Rle_dec 5 0); [lra|]. reflexivity.
Qed.
(** careful: the coordinates are moved and all the items are reset *)
Example C47_example : careful _ _ (segment_geometry demo) segment_box segment_distance (fun l => l) (new_scene _ _)
  ([AddCoordinate _ (lit "A") (V 1 1); AddCoordinate _ (lit "B") (V 2 3)] ++ [] ++
   AddItem _ named None :: Update _ :: ReadBox _ 0 :: [AddCoordinate _ (lit "A") (V 0 0)] ++ [SetDirty _ 0 false] ++ [Update _]).
Proof.
  apply careful_move; [repeat constructor|]. apply careful_step; [exact I|]. apply careful_step; [exact I|]. apply careful_step.
  - cbn. intros it H. injection H as <-. reflexivity.
  - match goal with |- careful _ _ _ _ _ _ ?s _ =>
      assert (R : reset_all _ _ s = [SetDirty _ 0 false]) by (vm_compute; reflexivity);
      pose proof (careful_move segment_shape segment (segment_geometry demo) segment_box segment_distance (fun l => l) s [AddCoordinate segment_shape (lit "A") (V 0 0)] [Update _]) as M
    end.
    rewrite R in M. apply M; [repeat constructor|]. apply careful_step; [exact I|]. constructor.
Qed.
