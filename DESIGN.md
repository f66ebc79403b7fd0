# Formal model of Patro: design

Source: `/repo` (FabriceSalvaire/Patro, python), read as text only.
Prover: Rocq/Coq 8.16.1.  All Coq sources are in `rocq/theories`.

## Layout

For every area `X` there are up to five files.

* `ModelX.v`: the model, one Gallina definition per python function, each with a comment citing
  the file and lines it models and any simplification.
* `SpecX.v`: a small specification that does not use the functions of the model, only its data types
  (graph reachability, "is a common point of two lines", windows of a list, point sets, ...).
* `GlueX.v`: words of the statements which have to talk about both sides.
* `ProofX.v`: lemmas.
* `PropX.v`: only the property theorems, `Print Assumptions` after each, and `Example`s that
  show a concrete non-trivial case meeting the hypotheses.

Names: `Cnn_...` belongs to property `Cnn` of `properties.jsonl`.  The suffix `_partial` marks a
theorem which proves a part of the claim (the comment above it says what is missing), `_refuted` a
theorem which proves that a part of the claim is false of the code, with a witness or for all inputs.
A property has the status `proved` in `MANIFEST.json` only if its theorems give the whole
statement; it is `partial` as soon as a part of it is missing or refuted.

## Conventions of the model

* Python exceptions are values: `result A := Ok a | Raise e` (`Base.v`), never silently totalised.
  `NotANumber` stands for the places where numpy would give nan, inf or a warning instead of an
  exception; `OutOfFuel` marks loops which would not end, and is proved unreachable where the claim
  needs it.
* Python integers are `Z`; list lengths and indices are `nat`.
* Python floats are modelled by the real numbers `R` of the standard library, i.e. exact
  arithmetic: rounding, overflow, NaN, infinities and `-0.0` are not modelled.  The exceptions are the
  conversions of colour channels (IEEE binary64, Flocq) and the decimal texts of numbers, which are exact.
* Where texts are read as floats, the reader and the writer are parameters of the theorems, with the
  hypotheses in the statement; the examples instantiate them.
* Set and dict iteration orders that python leaves open are universally quantified (`arrange`
  parameters of rtree and of graphs).
* Threads are interleaved at the granularity of single attribute reads and writes, as the
  CPython byte code allows; `with lock` blocks exclude each other.
* Strings are lists of 8 bit characters; other unicode characters are not modelled.
* Object identity and sharing are modelled where the claims are about them (primitives, buffers,
  singletons, caches); elsewhere objects are values.
* A statement that is false of the code is kept in view: the file proves `..._refuted` with a
  witness, and `..._partial` gives the part that does hold.

## Checks of the model against the program

The program cannot be run here.  Two things stand in for running it.

* `Replay.v` and `ReplayFiles.v` replay the unit tests of the repository (directory unit-test) on the model:
  every assertion of test_Vector, test_Transformation, test_Line, test_Polygon (basic, convex hull,
  simplification), test_Objectivity and the assertions of test_svg on the items, the paths and the rectangles are
  proved of the definitions.  One assertion of test_Vector holds of the program by rounding only
  (the orientation of `from_angle(-180)`, `replay_vector_180`): the model gives 180 instead of -180.
  Not replayed: the lengths of curves of test_Bezier (they compare an approximation at 4 places) and test_TexPainter
  (it asserts nothing).
* `seeded/LOG.jsonl` lists edits of the model, as bugs would be, and the theorems which failed.

## Versions assumed

The code needs the python and numpy of its time (2019): `np.float`, `collections.Iterable` and `arg.s`
of `ast` nodes exist; `start is -1` is true for the integer -1 of CPython.

## Modules which cannot be imported at the pinned commit

The pinned commit is in the middle of a refactoring.  These modules fail before any function in
them can run; the model formalises the function bodies as written.

* `Patro/GraphicEngine/GraphicScene/Scene.py` line 403: `path_style: GraphicPathStyle` inside a
  call is a syntax error.
* `Patro/GraphicEngine/GraphicScene/GraphicItemMixin.py`: imports `Path.GeometryEngine` and uses
  the undefined name `GraphicScene` in annotations.
* `Patro/Measurement/ValentinaMeasurement.py`: imports the missing name `Measurements`.
* `Patro/GeometryEngine/Sketch.py`: `SketchLine` is used in an annotation inside its own class
  (this module is not modelled).

## Properties

177 properties: 40 proved, 137 partial.  For each one: status, what the theorems cover, the file of its theorems, the theorems with the set of
axioms they use (see the trusted base).

### C01: Object ids are unique and strictly increasing

*proved*, in `PropCounter.v`.  single thread; see C03 for threads

* `C01_each_creation` [A0]
* `C01_ids_strictly_increasing` [A0]

### C02: No increment is lost under concurrency

*proved*, in `PropCounter.v`.  every schedule; increments and sets are also shown to take effect one by one in some order

* `C02_calls_take_effect_one_by_one` [A0]
* `C02_no_lost_increment` [A0]

### C03: Concurrent increments return distinct values

*partial*, in `PropCounter.v`.  false of the code: two overlapping increments can return the same value (refuted with a schedule). Proved for calls that do not overlap.

* `C03_distinct_returns_partial` [A0]
* `C03_distinct_returns_refuted` [A0]

### C04: Metaclass singleton builds one instance

*proved*, in `PropSingleton.v`.  constructor modelled as one step that may raise and does not instantiate the class itself

* `C04_one_instance` [A0]

### C05: Decorator singleton builds one instance

*partial*, in `PropSingleton.v`.  false of the code: the decorator takes no lock (refuted with a schedule). Proved when calls do not overlap.

* `C05_one_instance_partial` [A0]
* `C05_one_instance_refuted` [A0]

### C06: Window iterators enumerate exactly the windows

*proved*, in `PropIter.v`, `PropPrimitive.v`.  generators modelled by the list of yielded items

* `C06_closed_iterator` [A0]
* `C06_closed_iterator_empty` [A0]
* `C06_closed_multiwise_index` [A0]
* `C06_closed_pairwise` [A0]
* `C06_closed_pairwise_defined` [A0]
* `C06_multiwise` [A0]
* `C06_nuplets` [A1]
* `C06_pairwise` [A0]
* `C06_pairwise_defined` [A0]
* `C06_pairwise_empty` [A0]

### C07: Topological sort orders every DAG

*proved*, in `PropGraph.v`.  all set iteration orders; python's recursion limit is not modelled

* `C07_topological_order` [A0]

### C08: Topological sort detects every cycle

*proved*, in `PropGraph.v`.  all set iteration orders; python's recursion limit is not modelled

* `C08_cycle_detected` [A0]

### C09: Breadth first search visits the reachable nodes once, nearest first

*proved*, in `PropGraph.v`.  

* `C09_breadth_first` [A0]

### C10: Graph edges stay mirrored

*proved*, in `PropGraph.v`.  nodes made by add_node; the broken property `ancestor` (missing attribute) is not modelled

* `C10_disconnect_missing` [A0]
* `C10_history_refines_abstract_graph` [A0]
* `C10_leafs` [A0]
* `C10_mirrored` [A0]
* `C10_roots` [A0]

### C11: Quadratic roots are exactly the solutions

*proved*, in `PropRoot.v`.  over the reals; sympy's real_roots is a parameter; cubic_root_normalised refuted (operator precedence)

* `C11_cubic_closed_form` [A2]
* `C11_cubic_root_degenerate` [A3]
* `C11_cubic_root_normalised_refuted` [A4]
* `C11_quadratic_root` [A3]
* `C11_quadratic_root_degenerate` [A3]
* `C11_quadratic_root_order` [A3]

### C12: Vector rotations and normals are isometric

*proved*, in `PropLine2.v`, `PropMore.v`, `PropMore3.v`, `PropVector.v`.  over the reals; extra: orientation of the null vector is not rejected (refuted)

* `C12_abs` [A2]
* `C12_anti_normal` [A3]
* `C12_from_polar` [A3]
* `C12_middle` [A3]
* `C12_normal` [A3]
* `C12_normalise` [A3]
* `C12_orientation_beyond` [A4]
* `C12_orientation_null_rejected_refuted` [A4]
* `C12_orientation_of_polar` [A4]
* `C12_orientation_polar` [A4]
* `C12_parity` [A3]
* `C12_permute` [A3]
* `C12_rotate_adds_angles` [A3]
* `C12_rotate_back` [A3]
* `C12_rotate_clockwise` [A3]
* `C12_rotate_counter_clockwise` [A3]
* `C12_rotate_keeps_cross` [A3]
* `C12_rotate_keeps_dot` [A3]
* `C12_rotate_keeps_length` [A3]
* `C12_rotate_orientation` [A4]

### C13: Projection and deviation recover the vector

*partial*, in `PropMore.v`, `PropMore3.v`, `PropVector.v`.  projection, deviation, cos, sin, angle proved; the exactness of is_parallel is false of the code (rounding to 7 digits), refuted, with the exact tolerance proved

* `C13_angle_of_polar` [A4]
* `C13_angle_with` [A4]
* `C13_collinear_is_parallel_partial` [A2]
* `C13_cos_sin` [A3]
* `C13_cross_null` [A2]
* `C13_decomposition` [A3]
* `C13_is_orthogonal_partial` [A2]
* `C13_is_parallel_exact_refuted` [A2]
* `C13_is_parallel_tolerance_partial` [A2]
* `C13_line_is_orthogonal_partial` [A2]
* `C13_null_direction` [A3]
* `C13_projection_deviation` [A3]

### C14: Composing affine transformations composes their effect

*proved*, in `PropTransformation.v`.  affine class: full; Transformation2D: the product of differently typed transformations raises (refuted), right when defined

* `C14_composition` [A3]
* `C14_identity_tag` [A3]
* `C14_in_place_product` [A3]
* `C14_linear_product_defined_refuted` [A1]
* `C14_linear_product_partial` [A2]
* `C14_product` [A3]

### C15: Rotation about a centre and translation act rigidly

*partial*, in `PropTransformation.v`.  geometry proved; scalars: refuted for products without type, proved for tagged transformations

* `C15_rotation_at` [A3]
* `C15_rotation_at_center` [A3]
* `C15_rotation_at_rigid` [A3]
* `C15_scalar_partial` [A3]
* `C15_scalar_rigid_refuted` [A3]
* `C15_scale` [A3]
* `C15_translation` [A3]

### C16: Splitting a Bezier curve keeps the curve

*proved*, in `PropBezier.v`.  All control polygons; a quadratic split outside (0,1) returns the whole curve and None, as written.

* `C16_cubic_split` [A2]
* `C16_cubic_split_at_two` [A2]
* `C16_quadratic_split` [A2]
* `C16_quadratic_split_at_two` [A2]
* `C16_quadratic_split_outside` [A2]

### C17: Bezier evaluation agrees with de Casteljau, tangent and degree elevation

*proved*, in `PropBezier.v`, `PropMore.v`.  tangent1 of a quadratic curve calls itself (RecursionError): shown as C17_quadratic_tangent1_refuted; everything in the statement holds.

* `C17_control_box` [A2]
* `C17_cubic_bernstein` [A2]
* `C17_cubic_casteljau` [A2]
* `C17_cubic_ends` [A2]
* `C17_cubic_tangent` [A4]
* `C17_cubic_tangent1` [A4]
* `C17_quadratic_bernstein` [A2]
* `C17_quadratic_casteljau` [A2]
* `C17_quadratic_ends` [A2]
* `C17_quadratic_normal0` [A4]
* `C17_quadratic_tangent` [A4]
* `C17_quadratic_tangent0` [A4]
* `C17_quadratic_tangent1_refuted` [A0]
* `C17_to_cubic` [A2]

### C18: B-spline basis is a partition of unity

*proved*, in `PropSpline.v`.  Every degree and number of points; at the very end of the range all the basis functions are zero (C18_end), as the statement excepts.

* `C18_basis` [A2]
* `C18_constructor` [A2]
* `C18_end` [A2]

### C19: De Boor evaluation is the B-spline

*partial*, in `PropSpline.v`.  Proved from the knot number degree on and before the knot number n, for every knot vector of the right length, plus both ends of uniform splines. False before the knot number degree of unclamped knots (negative indices), at the end of splines with given knots (TypeError), and for the naive evaluation (always TypeError).

* `C19_deboor_partial` [A2]
* `C19_end_refuted` [A2]
* `C19_naive_refuted` [A2]
* `C19_unclamped_refuted` [A2]
* `C19_uniform_ends` [A2]

### C20: Knot insertion keeps the spline

*partial*, in `PropDrawing.v`, `PropSpline.v`.  insert_knot and to_bezier_form keep every point before the end of the domain; the curves of to_bezier have the points of the spline up to their ends (C20_joined); at the end the spline obtained by insertion raises TypeError (C20_end_refuted).

* `C20_bezier_form` [A2]
* `C20_end_refuted` [A2]
* `C20_insert_knot` [A2]
* `C20_joined` [A2]
* `C20_to_bezier` [A2]
* `C20_to_bezier_refused` [A2]

### C21: Line intersection is the common point

*partial*, in `PropLine.v`.  exact above the absolute tolerance 5e-8 on the cross product; refuted below (short direction vectors of crossing lines are called parallel)

* `C21_line_intersection_partial` [A2]
* `C21_line_intersection_refuted` [A2]
* `C21_parallel_lines` [A2]
* `C21_segment_intersection_partial` [A2]

### C22: Projection on a line is the nearest point

*partial*, in `PropLine.v`.  distance, parallels and coordinates proved; projected_point and triangle_projected_point proved for unit directions only, refuted otherwise

* `C22_distance_to_line` [A3]
* `C22_projected_point_partial` [A3]
* `C22_projected_point_refuted` [A3]
* `C22_shifted_parallel_line` [A3]
* `C22_triangle_projected_point_partial` [A3]
* `C22_x_from_y` [A2]
* `C22_y_from_x` [A2]

### C23: Segment intersection test is exact

*proved*, in `PropLine.v`.  exact for all segments, including collinear and degenerate ones

* `C23_intersect_with` [A2]

### C24: Distance from a point to a segment is the minimum

*proved*, in `PropLine.v`.  all segments including degenerate ones, all polylines of at least two points

* `C24_polyline_distance` [A3]
* `C24_segment_distance` [A3]

### C25: Segment membership test is exact

*partial*, in `PropLine.v`, `PropLine2.v`.  contain_point refuted in both directions; holds for unit length segments and points of their line; left_of and is_collinear proved

* `C25_contain_point_partial` [A3]
* `C25_contain_point_refuted` [A3]
* `C25_is_collinear` [A2]
* `C25_left_of` [A2]
* `C25_one_side` [A2]
* `C25_right_of` [A2]

### C26: Polygon area and barycenter are geometric

*proved*, in `PropPolygon.v`.  area, barycenter and orientation equal the signed area and moment of the polygon for every centre, after any queries; first vertex, reversal and affine maps. The code answers None when its own test finds the polygon not simple; that test has a tolerance, so a scaling can change it: area/barycenter under scaling assume both polygons pass.

* `C26_affine` [A4]
* `C26_area` [A4]
* `C26_barycenter` [A4]
* `C26_clockwise` [A4]
* `C26_first_vertex` [A4]
* `C26_reverse` [A4]

### C27: Path building follows the pen

*partial*, in `PropMore.v`, `PropPath.v`.  C27_pen_partial holds for every command sequence without stringed curves and without absolute=True on horizontal_to/vertical_to, which drop the other coordinate (C27_pen_refuted). Stringed curves: the quadratic one is never drawn, the cubic one has no stop point (C27_stringed_refuted). Commands after close change nothing except close(close_radius) (C27_after_close_refuted). C27_defined says when drawing succeeds.

* `C27_after_close_partial` [A2]
* `C27_after_close_refuted` [A2]
* `C27_close_refuted` [A2]
* `C27_defined` [A2]
* `C27_move_refuted` [A3]
* `C27_pen_partial` [A3]
* `C27_pen_refuted` [A3]
* `C27_stringed_refuted` [A3]

### C28: Transforming a path commutes with evaluating it

*partial*, in `PropPath.v`.  End points: every history, every affine transformation (C28_points). Geometry of unrounded parts other than arcs (C28_geometry_partial). Rounded corners for similarities when no direction was read before (C28_corner_partial). Refuted: a cached direction is not rotated (C28_corner_refuted), arcs keep their radii (C28_arc_refuted), sides drawn by direction change trimming (C28_side_refuted), screen transformation refused (C28_defined_refuted).

* `C28_arc_refuted` [A4]
* `C28_corner_partial` [A4]
* `C28_corner_refuted` [A4]
* `C28_defined_partial` [A4]
* `C28_defined_refuted` [A4]
* `C28_geometry_partial` [A4]
* `C28_points` [A4]
* `C28_side_refuted` [A4]

### C29: Circle and segment intersections are exact

*partial*, in `PropConic.v`.  Exactly the common points of the circle and the whole line; refuted for the segment, whose ends are not tested.

* `C29_line_partial` [A3]
* `C29_null_segment` [A3]
* `C29_segment_refuted` [A3]

### C30: Arc angular domain membership and length

*partial*, in `PropConic.v`, `PropConic2.v`.  Membership proved when the angles are in the same turn, length for counterclockwise domains; refuted otherwise.

* `C30_inside_partial` [A2]
* `C30_inside_refuted` [A2]
* `C30_kinds` [A2]
* `C30_length_partial` [A3]
* `C30_length_refuted` [A3]

### C31: Sketch dependencies never form a cycle

*partial*, in `PropSketch.v`.  For every history of additions, readings and evaluations, each edge of the graph goes from an earlier to a later operation, or is a loop at a point whose expression measures the point itself with Line; without such expressions there is no cycle. The full statement is false: a NormalPoint N whose angle is 'unknown + Line_N_B' is evaluated without error (the NameError is logged, the angle is dropped) and then N is connected to itself (C31_no_cycle_refuted).

* `C31_no_cycle_partial` [A4]
* `C31_no_cycle_refuted` [A4]
* `C31_only_loops_partial` [A4]

### C32: Expression dependencies are complete

*partial*, in `PropMore2.v`, `PropSketch.v`.  Proved for the points given to Line, and the recorded dependencies are exactly the edges of the graph. False for the other functions: AngleLine_A_B records nothing (C32_dependencies_refuted).

* `C32_dependencies_are_edges` [A4]
* `C32_dependencies_refuted` [A4]
* `C32_line_points_partial` [A4]
* `C32_too_early` [A4]
* `C32_unknown_compiled` [A0]
* `C32_unknown_point` [A4]

### C33: Sketch evaluation places every point as specified

*partial*, in `PropMore2.v`, `PropSketch.v`.  After every successful evaluation, from any state, every operation satisfies its defining relation with the values of its expressions, and for a sketch evaluated for the first time these values are the values of what is written (C33_values; the five spline functions are constant 0 in the code). Line intersections within the tolerance 5e-8 of parallelism are left out, and a point of contact is only shown to be on the circle and on the line: it may be off the segment though another contact point is on it (C33_contact_refuted). A NormalPoint whose angle has an unknown name is placed with the angle 0.

* `C33_contact_refuted` [A4]
* `C33_no_value` [A4]
* `C33_placed_partial` [A4]
* `C33_values` [A4]

### C34: Operations are found by id and by name

*proved*, in `PropMore2.v`, `PropSketch.v`.  Invariant over every history, including failed constructors, explicit ids and ids taken by other objects. Names refer to the latest point of that name.

* `C34_added_is_found` [A4]
* `C34_arguments` [A0]
* `C34_arguments_taken` [A0]
* `C34_failed_add` [A4]
* `C34_found` [A4]
* `C34_has` [A4]
* `C34_unknown_refused` [A4]

### C35: Formula rewriting replaces exactly the identifiers

*partial*, in `PropFormula.v`.  Formulas are modelled as character lists with find, replace, split and the identifier scan of Calculator.py. Proved for every formula in which no measured pair is the beginning of another one, CurrentLength is written once and a single custom measurement is used: the output is the token by token translation. Without one of these conditions the claim is false (refuted with witnesses: two customs, Line_A_B beside Line_A_B1, CurrentLength twice, a name containing Line_). Parsing by ast is not modelled.

* `C35_current_refuted` [A0]
* `C35_customs_refuted` [A0]
* `C35_pairs_refuted` [A0]
* `C35_rewriting_partial` [A0]
* `C35_unchanged` [A0]
* `C35_unknown` [A0]
* `C35_word_refuted` [A0]

### C36: Pattern scopes behave as a list of named scopes

*partial*, in `PropScope.v`.  Scopes are a list with object identities. After any history, addition, removal by name, index and name lookup are characterised, names are reachable exactly when added more often than removed; with each name given once the whole claim holds. In general it is false because a name can be given twice (refuted with a witness).

* `C36_add` [A0]
* `C36_duplicate_refuted` [A0]
* `C36_history` [A0]
* `C36_once` [A0]
* `C36_remove_partial` [A0]
* `C36_renamed` [A0]

### C37: Measurement sets reject duplicates and invalid names

*partial*, in `PropMeasure.v`.  Everything but the word identifier is proved for every history: distinct names, permitted characters, rejected additions leave the set unchanged, accepted ones are found and kept. ASCII names which start by a letter or a score are identifiers; the empty name, 1a and a fraction character are accepted too (refuted). Names are Latin-1 texts; numbers and sympy expressions are parameters.

* `C37_added` [A0]
* `C37_history` [A0]
* `C37_identifier_partial` [A0]
* `C37_identifier_refuted` [A0]
* `C37_kept` [A0]
* `C37_names` [A0]
* `C37_rejected` [A0]

### C38: XML attributes survive a write and read

*partial*, in `PropXml.v`.  Proved for every consistent attribute table and all values of the kind of their attribute, for every float type whose text is read back in one word (python str/float); integers are modelled down to the digits. The element stays in memory: lxml serialisation is not modelled. An empty list cannot be read back, None comes back as the default if there is one, and '1, 2' is refused (refuted).

* `C38_absent_refuted` [A0]
* `C38_booleans` [A0]
* `C38_comma_refuted` [A0]
* `C38_exact` [A0]
* `C38_integers` [A0]
* `C38_lists_refuted` [A0]
* `C38_not_boolean` [A0]
* `C38_round_trip_partial` [A0]

### C39: SVG path data is read as the SVG grammar says

*partial*, in `PropSvgPath.v`.  proved: every text is split into its words between spaces and commas (both ways); well formed data without T/t is read as the commands of the grammar with repetition and implicit lines, for all fuel from the length of the text; commands written are read back (floats whose text is read back); nothing is lost whatever the text; reading ends without z. Refuted: no space after a letter, newlines, T takes 3 arguments, a number after z is read for ever. Floats are a parameter; isalpha/lower on Latin-1.

* `C39_compact_refuted` [A0]
* `C39_ends_partial` [A0]
* `C39_ends_refuted` [A0]
* `C39_first_number` [A0]
* `C39_lossless` [A0]
* `C39_newline_refuted` [A0]
* `C39_parse_partial` [A0]
* `C39_round_trip_partial` [A0]
* `C39_smooth_refuted` [A0]
* `C39_words` [A0]

### C40: SVG path commands draw the right geometry

*partial*, in `PropSvgPath.v`.  proved: for every command list starting with a move, the parts of the path are the strokes of an independent SVG pen with their control points (and from the text too). Missing because false, with witnesses: absolute vertical lines, later moves, commands after z, smooth curves (always TypeError). Letters among the arguments are not modelled.

* `C40_after_close_refuted` [A4]
* `C40_geometry_partial` [A4]
* `C40_no_move` [A2]
* `C40_smooth_cubic_refuted` [A2]
* `C40_smooth_quadratic_refuted` [A2]
* `C40_subpath_refuted` [A4]
* `C40_text_partial` [A4]
* `C40_vertical_refuted` [A4]

### C41: SVG transforms are read in order and survive a round trip

*partial*, in `PropSvgTransform.v`.  One transform written without spaces is right for matrix, translate, rotate and two-value scale. Refuted: a space repeats the transform, lists are refused, the order of a list is reversed, one-value scale and skews raise, what is written is never read back.

* `C41_list_refuted` [A3]
* `C41_order` [A3]
* `C41_order_refuted` [A3]
* `C41_repeated` [A3]
* `C41_round_trip_refuted` [A3]
* `C41_scale_refuted` [A3]
* `C41_single_partial` [A3]
* `C41_skew_refuted` [A3]
* `C41_spaces_refuted` [A3]

### C42: SVG render state is inherited by nesting

*partial*, in `PropSvgState.v`.  An item's own style is used; for trees where nothing follows a group and attributes no item leaves to None the innermost giver is used, and transforms compose outer to inner; the exact behaviour on every tree is C42_document. Refuted: items after a group keep its style, attributes not given reset it, a final semicolon raises, linecap/linejoin/miterlimit attributes are lost.

* `C42_after_refuted` [A1]
* `C42_document` [A2]
* `C42_inherited_partial` [A2]
* `C42_linecap_refuted` [A1]
* `C42_none_refuted` [A1]
* `C42_own` [A2]
* `C42_semicolon_refuted` [A1]
* `C42_transform_partial` [A2]

### C43: Valentina operations survive a write and read

*partial*, in `PropValentina.v`.  Proved for every operation whose line style is given and whose texts are XML texts, read in any reachable sketch which holds its points and whose last id is smaller. Missing: default line styles (KeyError when written) and the line of a spline (style lost, colour read as a text): refuted.

* `C43_default_refuted` [A4]
* `C43_round_trip_partial` [A4]
* `C43_spline_refuted` [A4]
* `C43_written` [A4]

### C44: Every well-formed Valentina piece can be read

*partial*, in `PropValentina.v`.  Proved for increasing ids larger than the last id of the process, and known points; skipping proved for all unsupported elements. Refuted: ids which do not increase (second reading), a reference to a skipped calculation, unknown tags, and pieces whose evaluation fails.

* `C44_again_refuted` [A4]
* `C44_dangling_refuted` [A4]
* `C44_evaluation_refuted` [A4]
* `C44_reachable` [A4]
* `C44_reading_partial` [A4]
* `C44_skipped` [A4]
* `C44_unknown_refuted` [A4]

### C45: DXF bulges become the right arcs

*partial*, in `PropDxf.v`.  Proved for all polylines: the geometry is one item per leg, and for bulges that are not negative the points shown by the item are exactly those of the leg (chord, or arc of included angle 4 atan b on the right side). Refuted for every negative bulge: the radius is negative, the centre is the one of the opposite bulge and the middle of the arc is missed (C45_negative_refuted).

* `C45_defined` [A4]
* `C45_legs_partial` [A4]
* `C45_negative_refuted` [A4]
* `C45_side` [A4]

### C46: Items are painted by z value, then in insertion order

*proved*, in `PropMore5.v`, `PropScene.v`.  After every history of operations on a scene. Painting visits the visible items, each one once, sorted by z value with insertion order among equal values; C46_stop describes what happens when an item has no paint method.

* `C46_new_item` [A1]
* `C46_once` [A2]
* `C46_order` [A2]
* `C46_paint` [A2]
* `C46_stop` [A2]

### C47: The spatial index follows the items

*partial*, in `PropScene.v`.  Uniqueness holds after every history; the full claim holds after the histories in which geometries are read after an update only and every item is reset (dirty = False) after a change of coordinates. Refuted otherwise: a geometry read before the update is never indexed, dirty = True keeps the stale box, remove_item always raises TypeError.

* `C47_careful_partial` [A2]
* `C47_read_refuted` [A2]
* `C47_remove_refuted` [A2]
* `C47_stale_refuted` [A2]
* `C47_unique` [A2]

### C48: Picking returns the items within the radius, nearest first

*partial*, in `PropScene.v`.  For every scene updated after a careful history (see C47) and every kind of geometry inside its box; for scenes of segments the distances are the true minimal distances. Refuted when a geometry was read before the update: the item is found nowhere.

* `C48_box_partial` [A2]
* `C48_careful_partial` [A3]
* `C48_read_refuted` [A2]
* `C48_segments_partial` [A3]

### C49: A Bezier path is cut in degree sized pieces

*partial*, in `PropScene.v`.  Proved for degrees 2 and 3 and for unsupported degrees. Refuted for degree 1: with at least one point bezier_path raises TypeError after making the segments.

* `C49_curves_partial` [A0]
* `C49_degree` [A0]
* `C49_number` [A0]
* `C49_points` [A0]
* `C49_segments_refuted` [A0]

### C50: Paper tiles cover the drawing

*partial*, in `PropScene.v`.  The tiles never overlap except at borders and have the right number and size; they cover the box exactly when there are as many rows as columns: the row moves the tile along x and the column along y.

* `C50_area` [A2]
* `C50_cover_partial` [A2]
* `C50_cover_refuted` [A2]
* `C50_disjoint` [A2]
* `C50_number` [A2]
* `C50_size` [A2]

### C51: A-series paper sizes are consistent

*proved*, in `PropMore.v`, `PropUnits.v`.  Sizes of every letter A, B, C and level 0..10 over the real numbers; also the table of the standard to the millimetre, and that nothing else is accepted.

* `C51_accepted` [A3]
* `C51_inches` [A2]
* `C51_landscape` [A3]
* `C51_levels` [A3]
* `C51_made` [A3]
* `C51_ratio` [A3]
* `C51_standard` [A3]

### C52: Typographic unit conversions are inverse

*partial*, in `PropUnits.v`.  False: mm to inch, inch to point and point to inch change every non-zero length (C52_kept_refuted). The other conversions and four round trips are proved.

* `C52_kept_partial` [A2]
* `C52_kept_refuted` [A2]
* `C52_round_trip_refuted` [A2]
* `C52_round_trips_partial` [A2]

### C53: Yarn count conversions are inverse

*partial*, in `PropUnits.v`.  False: den2tex multiplies by 10/9 instead of dividing by 9 and nm2tex multiplies instead of dividing. The conversions from tex are proved right.

* `C53_denier_partial` [A2]
* `C53_denier_refuted` [A2]
* `C53_metric_partial` [A2]
* `C53_metric_refuted` [A2]

### C54: Colours survive conversion to text and back

*proved*, in `PropColor.v`.  IEEE binary64 arithmetic (Flocq); every byte checked exhaustively.

* `C54_clone` [A4]
* `C54_components` [A4]
* `C54_copy` [A4]
* `C54_equal` [A4]
* `C54_integers` [A4]
* `C54_round_trip` [A4]
* `C54_setters` [A4]
* `C54_text` [A4]
* `C54_valid` [A4]

### C55: Cloned styles equal the original

*partial*, in `PropStyle.v`.  False: a copy of a path style loses stroke_alpha, fill_alpha, cap_style and join_style, a copy of a Bezier style loses all the path attributes; the theorems say exactly when a copy equals the original.

* `C55_bezier_partial` [A4]
* `C55_bezier_refuted` [A4]
* `C55_path_partial` [A4]
* `C55_path_refuted` [A4]

### C56: TeX output is balanced and ordered

*partial*, in `PropMore.v`, `PropTex.v`.  Everything is proved but the names: a name of three characters without suffix names the file .tex (C56_file_refuted).

* `C56_append` [A0]
* `C56_clear` [A0]
* `C56_document` [A0]
* `C56_environment` [A0]
* `C56_file_partial` [A0]
* `C56_file_refuted` [A0]
* `C56_new_document` [A0]
* `C56_newpage` [A0]
* `C56_text` [A0]

### C57: The convex hull contains the points and turns left

*partial*, in `PropPolygon.v`.  every list of points, also with repeated points: the hull is a subset, counterclockwise, begins at the leftmost lowest point, has every point on the left of every edge and maximises every linear functional. Refuted: two points seen in the same direction from the lowest point raise TypeError (C57_failure: exactly then), and the lowest point given twice can be twice in the hull (C57_twice_refuted).

* `C57_failure` [A4]
* `C57_hull_partial` [A4]
* `C57_hull_refuted` [A4]
* `C57_twice_refuted` [A4]

### C58: Triangle membership and area

*partial*, in `PropLine.v`.  membership, area and refusal of aligned points proved; perimeter always raises

* `C58_flat_triangle_rejected` [A2]
* `C58_perimeter_refuted` [A0]
* `C58_point_in_triangle` [A2]
* `C58_triangle_area` [A3]

### C59: Rectangles and bounding boxes

*proved*, in `PropLine.v`.  

* `C59_bounding_box` [A2]
* `C59_point_in_rectangle` [A2]
* `C59_rectangle_area` [A3]
* `C59_rectangle_corners` [A0]
* `C59_rectangle_edges` [A2]
* `C59_rectangle_perimeter` [A3]

### C60: Flatness test and fat line of a Bezier curve are sound

*partial*, in `PropBezier.v`.  Holds for cubic curves; fat_line of a quadratic curve always raises AttributeError.

* `C60_fat_line` [A3]
* `C60_flat_enough` [A3]
* `C60_quadratic_fat_line_refuted` [A0]

### C61: The length of a quadratic Bezier curve is its arc length

*partial*, in `PropBezier.v`, `PropMore.v`.  Arc length except when the control points are aligned and the motion first brakes: then ValueError (math domain) is raised. A non positive interpolation step never terminates.

* `C61_broken` [A3]
* `C61_default` [A3]
* `C61_interpolated_length` [A3]
* `C61_interpolated_length_refuted` [A3]
* `C61_quadratic_length_braking_refuted` [A4]
* `C61_quadratic_length_partial` [A4]
* `C61_quadratic_length_refuted` [A4]

### C62: The length of a cubic Bezier curve is computed on consecutive pieces of it

*partial*, in `PropBezier.v`.  Pieces cover the curve exactly whenever the third difference is not null; otherwise (every raised quadratic) ZeroDivisionError. t_at_length raises between the ends. Accuracy of the approximation is not claimed.

* `C62_adaptive_pieces_partial` [A4]
* `C62_cubic_length_refuted` [A4]
* `C62_mid_point_approximation` [A2]
* `C62_t_at_length_partial` [A2]
* `C62_t_at_length_refuted` [A2]
* `C62_t_beyond_length_refuted` [A2]

### C63: The area of a cubic Bezier curve

*partial*, in `PropBezier.v`.  The value is the area swept from the origin: equal to the chord area exactly when the chord's line passes through the origin; refuted otherwise.

* `C63_area_from_origin` [A4]
* `C63_area_partial` [A4]
* `C63_area_refuted` [A4]

### C64: The closest point of a Bezier curve

*partial*, in `PropBezier.v`.  Returned point is a critical point of the distance; refuted: the farthest point is returned in a witness; the quadratic version never returns a point.

* `C64_closest_point_partial` [A2]
* `C64_closest_point_refuted` [A3]
* `C64_quadratic_closest_point_refuted` [A3]

### C65: Intersection of a Bezier curve and a line

*partial*, in `PropBezier.v`.  intersect_line always raises AttributeError (refuted); the remaining root finding is right once the line is the x axis, with sympy as an oracle for cubic polynomials.

* `C65_cubic_axis_partial` [A3]
* `C65_intersect_line_refuted` [A0]
* `C65_quadratic_axis_partial` [A3]

### C66: Conversions between cubic Bezier curves and uniform splines

*partial*, in `PropSpline.v`.  to_spline and the uniform cubic spline are right; CubicUniformSpline2D.to_bezier computes the right points then raises AttributeError; the quadratic conversion is wrong.

* `C66_quadratic_refuted` [A2]
* `C66_to_bezier_partial` [A2]
* `C66_to_bezier_refuted` [A0]
* `C66_to_spline` [A2]
* `C66_uniform_cubic` [A2]

### C67: Polygon answers do not depend on what was asked before

*partial*, in `PropPolygon.v`.  independence of the history proved for every query sequence; refuted after apply_transformation: cached perimeter and area are kept.

* `C67_creation` [A0]
* `C67_history` [A4]
* `C67_perimeter` [A4]
* `C67_stale_perimeter` [A4]
* `C67_stale_refuted` [A4]

### C68: The simple polygon test

*partial*, in `PropPolygon.v`.  exact characterisation with the tolerance of is_parallel; refuted for small crossing polygons.

* `C68_simple_partial` [A4]
* `C68_simple_refuted` [A4]

### C69: The convex polygon test

*partial*, in `PropPolygon.v`.  exact characterisation; refuted: a straight vertex makes a clockwise polygon not convex.

* `C69_convex_partial` [A4]
* `C69_convex_refuted` [A4]

### C70: Principal axes of a polygon

*partial*, in `PropPolygon.v`.  extremal directions and lengths proved around the origin of the plane; refuted: translation changes the axes.

* `C70_axes_partial` [A4]
* `C70_axes_refuted` [A4]

### C71: Point in polygon

*partial*, in `PropMore.v`, `PropPolygon.v`.  refuted: never answers true, AttributeError whenever vertices lie on both sides of the horizontal through the point.

* `C71_crossing_refuted` [A2]
* `C71_inside_refuted` [A4]

### C72: Polygon simplification

*partial*, in `PropPolygon.v`.  subsequence, threshold < 0, area kept at threshold 0 when the first two vertices differ. Refuted for a doubled first vertex; and every polygon whose edges are not longer than a positive threshold is lost (None), however large it is (C72_short_refuted).

* `C72_short_refuted` [A3]
* `C72_simplify_partial` [A3]
* `C72_simplify_refuted` [A3]

### C73: Regular polygons

*partial*, in `PropPolygon.v`.  vertices proved; refuted: ngon_name and str_name raise NameError.

* `C73_name_refuted` [A0]
* `C73_regular` [A3]

### C74: Circles

*partial*, in `PropConic.v`, `PropConic2.v`.  Points, angles, tangent, arc length, inside test, box, distances proved; refuted: perimeter (test inverted), box of an arc, distance to an arc with a negative start angle, two circles crossing (TypeError) or touching on the left, rotated arcs.

* `C74_angle_for_point` [A4]
* `C74_arc_bounding_box_refuted` [A3]
* `C74_arc_distance_partial` [A4]
* `C74_arc_distance_refuted` [A4]
* `C74_arc_of_length` [A3]
* `C74_area` [A4]
* `C74_bounding_box` [A3]
* `C74_crossing_circles_refuted` [A3]
* `C74_distance` [A4]
* `C74_ends` [A3]
* `C74_from_two_points` [A3]
* `C74_inside` [A3]
* `C74_inverse` [A4]
* `C74_made` [A3]
* `C74_perimeter_refuted` [A3]
* `C74_point_at_angle` [A3]
* `C74_point_at_distance` [A3]
* `C74_rotated_arc_refuted` [A3]
* `C74_tangent` [A3]
* `C74_touching_circles_refuted` [A3]
* `C74_two_circles_partial` [A3]

### C75: Ellipses

*partial*, in `PropConic.v`, `PropConic2.v`.  Points, frames, line intersections when two points exist, distance up to the bisection error for wide ellipses, translations and scalings proved; refuted: tangent or missing lines raise, tall ellipses, inside test away from the origin, matrix, major vector, box and rotation of an inclined ellipse.

* `C75_bounding_box_partial` [A3]
* `C75_bounding_box_refuted` [A3]
* `C75_distance_partial` [A3]
* `C75_every_point` [A4]
* `C75_frame_in` [A3]
* `C75_frames_inverse` [A3]
* `C75_inside_refuted` [A3]
* `C75_intersect_segment_partial` [A3]
* `C75_major_vector_refuted` [A3]
* `C75_matrix_partial` [A3]
* `C75_matrix_refuted` [A3]
* `C75_on_ellipse` [A3]
* `C75_point_at_angle` [A3]
* `C75_rotation_refuted` [A3]
* `C75_scale` [A3]
* `C75_tall_ellipse_refuted` [A3]
* `C75_translation` [A3]
* `C75_vectors_refuted` [A3]

### C76: Ellipses converted to Bezier curves

*partial*, in `PropConic.v`.  Chain, end points, tangents, mid points and a bound on the deviation proved for counterclockwise domains; refuted for clockwise domains, a null span raises.

* `C76_chain_partial` [A4]
* `C76_clockwise_refuted` [A4]
* `C76_null_span` [A3]
* `C76_to_bezier_partial` [A4]

### C77: Arcs given by their end points

*partial*, in `PropConic.v`.  The ellipse passes through both points, at the opposites of the angles of its domain; refuted: the arc does not start at the first point, small radii raise NameError.

* `C77_null_radius` [A4]
* `C77_small_radius_refuted` [A4]
* `C77_start_refuted` [A4]
* `C77_through_points_partial` [A4]

### C78: Rounded corners of paths

*proved*, in `PropPath.v`.  Every history of commands and readings; non collinear sides, positive radius.

* `C78_arc` [A4]
* `C78_circle` [A4]
* `C78_fillet` [A4]
* `C78_rectangle` [A4]

### C79: Copies of paths, polygons and polylines as paths

*partial*, in `PropPath.v`.  polygon to path proved. clone never succeeds with a PathSegment, a cubic or a stringed curve (C79_clone_raises); when it succeeds the parts agree but the path is open (C79_clone_partial). Polyline points are taken as offsets (C79_polyline_refuted).

* `C79_clone_partial` [A2]
* `C79_clone_raises` [A2]
* `C79_clone_refuted` [A2]
* `C79_polygon` [A3]
* `C79_polyline_offsets` [A3]
* `C79_polyline_refuted` [A3]

### C80: The value of a measurement does not depend on when it is read

*partial*, in `PropMeasure.v`.  For additions followed by a reading the value is the evaluation of the expression with the whole set, and a value once read never changes. It does depend on when it is read: a value read before a measurement it uses is added stays unresolved (refuted on sums of names).

* `C80_order_refuted` [A0]
* `C80_stable` [A0]
* `C80_value_partial` [A0]

### C81: XML objects are made of their keywords

*partial*, in `PropXml.v`.  Proved for integers, floats, lists and strings; a python bool is always refused (refuted).

* `C81_bool_refuted` [A0]
* `C81_keywords_partial` [A0]

### C82: XML classes inherit the attributes of their ancestors

*proved*, in `PropXml.v`.  Class hierarchies are finite trees with the __mro__ as data; the table holds exactly the own and inherited attributes, and the own ones are read last.

* `C82_inherited` [A0]
* `C82_own` [A0]

### C83: The text of an XML element is read

*partial*, in `PropXml.v`.  The claim is false: the constructor overwrites the text which was read (refuted with a witness).

* `C83_text_refuted` [A0]

### C84: A colour text is read as the colour it names or refused

*partial*, in `PropColor.v`.  False for short, long and signed texts (C84_*_refuted); what is accepted is characterised.

* `C84_accepted_partial` [A4]
* `C84_long_refuted` [A4]
* `C84_short_refuted` [A4]
* `C84_sign_refuted` [A4]

### C85: Names of colours

*partial*, in `PropColor.v`.  The database keeps the first definition, ensure_color is idempotent; exactly five Valentina names read as the colour of another set (C85_valentina_refuted).

* `C85_ensure_text` [A4]
* `C85_ensure_twice` [A4]
* `C85_first` [A4]
* `C85_loaded` [A4]
* `C85_valentina_refuted` [A4]

### C86: A yarn tells its counts

*partial*, in `PropUnits.v`.  False: without a twist type the constructor raises ValueError. The counts are right.

* `C86_counts_partial` [A2]
* `C86_default_refuted` [A0]
* `C86_twist_partial` [A0]

### C87: A graphic style is made of its keywords

*proved*, in `PropStyle.v`.  

* `C87_bezier` [A4]
* `C87_members` [A0]
* `C87_path` [A4]
* `C87_setters` [A4]
* `C87_truth` [A0]

### C88: TikZ options of a style

*partial*, in `PropStyle.v`.  False for DashDotDotLine (KeyError), colours without a name and invisible lines; the rest is proved.

* `C88_color_refuted` [A0]
* `C88_dash_refuted` [A0]
* `C88_invisible_refuted` [A0]
* `C88_tikz_partial` [A0]

### C89: TeX buffers are shared unless copied

*proved*, in `PropTex.v`.  

* `C89_copied` [A0]
* `C89_self` [A0]
* `C89_shared` [A0]

### C90: TeX templates

*proved*, in `PropTex.v`.  Format specifications and conversions are not modelled.

* `C90_template` [A0]

### C91: The files of a TeX document

*partial*, in `PropTex.v`.  output_directory always raises AttributeError; pdf_filename is proved except for names of three characters.

* `C91_directory_refuted` [A0]
* `C91_pdf_partial` [A0]

### C92: User data and selection of a scene

*proved*, in `PropScene.v`.  After every history of operations on a scene.

* `C92_selected` [A2]
* `C92_unselect` [A0]
* `C92_user_data` [A2]

### C93: Cast positions of an item

*partial*, in `PropScene.v`.  Proved for items with several positions. Refuted for items with one position (circle, ellipse, text): the loop is on the vector or on the characters of the name.

* `C93_many_partial` [A1]
* `C93_name_refuted` [A1]
* `C93_vector_refuted` [A0]

### C94: Every painter paints every item

*partial*, in `PropScene.v`.  A painter paints the whole scene exactly when it has its own method for every visible item; no painter has one for rectangles, only the Qt painter has one for ellipses, images, paths, polygons, polylines and quadratic curves.

* `C94_methods_partial` [A0]
* `C94_painters_partial` [A2]
* `C94_rectangle_refuted` [A0]

### C95: Sagitta, radius and angle of a bulge

*partial*, in `PropDxf.v`, `PropMore5.v`.  Sagitta, dual and radius proved for all vertices and bulges; the angle property is refuted: it is the supplement of the included angle, so right only for quarters of circle.

* `C95_angle_refuted` [A4]
* `C95_quantities_partial` [A4]
* `C95_straight` [A4]

### C96: Neighbours of a polyline vertex

*proved*, in `PropDxf.v`.  All polylines and indices.

* `C96_added` [A0]
* `C96_closed_neighbours` [A0]
* `C96_open_neighbours` [A0]

### C97: Ellipses read from DXF

*partial*, in `PropDxf.v`.  Proved unless the major axis is vertical upwards; in that case the whole ellipse is right but the parameters are a quarter of turn off (C97_vertical, C97_vertical_refuted). The ratio is taken not negative.

* `C97_ellipse_partial` [A4]
* `C97_vertical` [A4]
* `C97_vertical_refuted` [A4]

### C98: Valentina sketches survive a write and read

*partial*, in `PropValentina.v`.  Proved for one reachable sketch of writable operations, read with a smaller last id; the evaluation of the sketch which was read succeeds and gives the same positions when it was built with the same measurements and evaluated. Several scopes: C129. Refuted when their ids are interleaved.

* `C98_positions` [A4]
* `C98_round_trip_partial` [A4]
* `C98_scopes_refuted` [A4]

### C99: Primitives own their points

*partial*, in `PropMore4.v`, `PropMore5.v`, `PropPrimitive.v`.  Histories with B-splines clones and clones of triangles made flat later raise (C99_spline_refuted); everything else holds for all histories.

* `C99_clone_error_refuted` [A2]
* `C99_clone_partial` [A3]
* `C99_constructed` [A3]
* `C99_constructible` [A2]
* `C99_equal` [A2]
* `C99_separate` [A3]
* `C99_settable` [A1]
* `C99_spline_refuted` [A3]
* `C99_untouched` [A3]

### C100: Transforming a primitive transforms the figure

*partial*, in `PropPrimitive.v`, `PropSplineImage.v`.  Points are mapped exactly by every method; the figure is the image for every class (B-splines of every degree and knots: C100_spline) except rectangles, for which it holds when the axes are kept and fails for rotations (C100_rectangle_refuted). B-splines and flat triangles have no clone.

* `C100_clone_partial` [A3]
* `C100_honest` [A3]
* `C100_image_partial` [A2]
* `C100_in_place` [A3]
* `C100_mirrors` [A3]
* `C100_rectangle_partial` [A2]
* `C100_rectangle_refuted` [A3]
* `C100_rotate` [A3]
* `C100_scale` [A3]
* `C100_spline` [A2]

### C101: Reversing a primitive

*partial*, in `PropPrimitive.v`.  Refuted: reverse returns the unchanged object for every primitive.

* `C101_reverse_refuted` [A1]

### C102: The length of a polyline is that of its current points

*partial*, in `PropPrimitive.v`.  Holds for the first call; later calls return the cached length (refuted).

* `C102_length_partial` [A3]
* `C102_stale_refuted` [A3]

### C103: Scene and viewport coordinates are inverse of each other

*proved*, in `PropViewport.v`.  For every history of resizes, scenes, positive zooms, fits and pans. C103_zero_refuted shows what a zoom by zero leaves behind: it is outside the quantifier.

* `C103_inverse` [A2]
* `C103_lengths` [A2]
* `C103_similar` [A3]
* `C103_zero_refuted` [A2]

### C104: The viewport area is what the window shows

*partial*, in `PropViewport.v`.  Proved for every history in which the viewport is not zoomed before it has a scene; C104_early_refuted is a history which breaks it.

* `C104_defined` [A2]
* `C104_early_refuted` [A2]
* `C104_resize` [A2]
* `C104_window` [A2]

### C105: Fitting shows the whole scene

*partial*, in `PropViewport.v`.  Proved for every box which is not a point; a one-point scene gives a zoom which is not a number and a scene without a bounding box raises (C105_point_refuted, C105_no_box_refuted).

* `C105_fit_partial` [A2]
* `C105_no_box_refuted` [A0]
* `C105_point_refuted` [A2]

### C106: Zooming and panning follow the mouse

*proved*, in `PropViewport.v`.  

* `C106_pan` [A2]
* `C106_zoom` [A2]

### C107: The grid is drawn at the multiples of its step

*proved*, in `PropViewport.v`.  Over the reals; the float computation of log10 next to a power of ten is not modelled.

* `C107_grid` [A4]
* `C107_lines` [A2]
* `C107_step` [A4]

### C108: The SVG export draws the scene on the page

*partial*, in `PropPainter.v`.  Segments and texts proved; the page placement, circles and curves are refuted (the order of the product of transformations is inverted, circles and cubic curves are lost)

* `C108_lines_partial` [A3]
* `C108_lost_refuted` [A3]
* `C108_page_refuted` [A3]

### C109: The DXF, PDF and matplotlib exports draw the image of the scene

*partial*, in `PropPainter.v`.  Segments, cubic curves and texts proved for the three painters; circles, the corner of the PDF page and the default driver are refuted

* `C109_circle_refuted` [A2]
* `C109_corner_refuted` [A2]
* `C109_defined_partial` [A2]
* `C109_driver_refuted` [A0]
* `C109_dxf_partial` [A3]
* `C109_mpl_partial` [A3]
* `C109_pdf_partial` [A3]

### C110: The Qt painter draws the image of each item

*partial*, in `PropPainter.v`.  Proved for every item but those refuted: ellipses with an angle, closed paths, paths with curves, rectangles, quadratic curves in a transformed scene, arcs in to_svg

* `C110_closed_refuted` [A3]
* `C110_curved_refuted` [A2]
* `C110_defined_partial` [A2]
* `C110_depicts_partial` [A3]
* `C110_ellipse_refuted` [A3]
* `C110_mirror_refuted` [A3]
* `C110_quadratic_refuted` [A3]
* `C110_rectangle_refuted` [A0]

### C111: Arcs are drawn to a sixteenth of a degree

*partial*, in `PropPainter.v`.  Proved except when the stop angle is less than 1/8 degree before the start angle (refuted)

* `C111_ends_partial` [A2]
* `C111_exact_partial` [A3]
* `C111_thin_refuted` [A3]

### C112: A TikZ figure declares its coordinates and writes its positions

*partial*, in `PropPainter.v`.  Order, coordinates, texts, segments and cubic curves proved; the transformation of the scene is ignored (refuted), circles have a fixed radius

* `C112_lines_partial` [A2]
* `C112_transformation_refuted` [A2]

### C113: The pen of an item is the one of its style

*partial*, in `PropPainter.v`.  Proved for items with a stroke colour and no fill colour; items without colour and filled items are refuted

* `C113_fill_refuted` [A4]
* `C113_independent_partial` [A4]
* `C113_previous_refuted` [A4]
* `C113_selected_partial` [A4]
* `C113_style_partial` [A4]

### C114: Reading an SVG file gives its shapes

*partial*, in `PropSvgFile.v`.  soundness for every document; defined when attributes are legible and there are no comments, ellipses or polygons, which are refuted

* `C114_comment_refuted` [A3]
* `C114_defined_partial` [A3]
* `C114_items` [A3]
* `C114_polyline_refuted` [A3]
* `C114_shape_refuted` [A3]

### C115: SVG lengths keep their number and unit

*partial*, in `PropSvgFile.v`.  numbers; units, writing, percentages and keywords refuted

* `C115_keyword_refuted` [A3]
* `C115_number_partial` [A3]
* `C115_percent_refuted` [A3]
* `C115_unit_refuted` [A3]
* `C115_written_refuted` [A3]

### C116: The view box of an SVG file

*partial*, in `PropSvgFile.v`.  exact iff the corner is the origin; other corners and comma-space separators refuted

* `C116_comma_refuted` [A3]
* `C116_origin_refuted` [A3]
* `C116_view_box_partial` [A3]

### C117: SVG rectangles become closed paths

*partial*, in `PropSvgFile.v`.  ry only; rx alone and missing x, y refuted

* `C117_default_refuted` [A2]
* `C117_radius_refuted` [A3]
* `C117_rounded_partial` [A4]
* `C117_sharp_partial` [A3]

### C118: The SVG file written has the size of the page

*proved*, in `PropSvgFile.v`.  the page and its elements, for all papers, lists and transformations

* `C118_page` [A3]

### C119: An SVG file written is read back

*partial*, in `PropSvgFile.v`.  values without path data, transformation or units; file without its comment; the comment, path data and transformation refuted

* `C119_comment_refuted` [A3]
* `C119_element_partial` [A3]
* `C119_file_partial` [A3]
* `C119_path_refuted` [A2]
* `C119_transform_refuted` [A3]

### C120: Drawing a primitive in a scene draws the primitive

*partial*, in `PropDrawing.v`.  Bezier curves, circles and arcs, whole ellipses, polygons, polylines, rectangles, segments, triangles and cubic open uniform splines: proved for all values. Refuted: every other spline raises and nothing is drawn (C120_splines_refuted, with the exception in each case), an elliptical arc is drawn whole, a line is not implemented.

* `C120_ellipse_refuted` [A4]
* `C120_line_refuted` [A0]
* `C120_plain` [A4]
* `C120_quadratic_refuted` [A4]
* `C120_spline` [A4]
* `C120_splines_refuted` [A4]

### C121: Drawing a path draws its outline

*partial*, in `PropDrawing.v`.  Proved as many items for paths without arcs, closed once, whose rounded corners are between straight parts of different directions; as one item for paths without rounded corners and arcs. Refuted: arcs of a path (angles of the SVG axes, null radius), closing twice with a radius, rounded corners and arcs as one item.

* `C121_arc_refuted` [A4]
* `C121_item_arc_refuted` [A4]
* `C121_item_partial` [A4]
* `C121_item_refuted` [A4]
* `C121_null_arc_refuted` [A4]
* `C121_segments_partial` [A4]
* `C121_stringed_refuted` [A4]
* `C121_twice_refuted` [A4]

### C122: The geometry of an item is what it draws

*partial*, in `PropDrawing.v`.  Proved for all items but texts, paths and images, and whole ellipses. Refuted: an elliptical arc has the whole ellipse, a path an empty path, a text a null rectangle.

* `C122_back` [A4]
* `C122_covers_partial` [A4]
* `C122_ellipse_refuted` [A3]
* `C122_path_refuted` [A1]
* `C122_text_refuted` [A1]

### C123: The drawing of a sketch shows each operation

*partial*, in `PropDetail.v`.  Proved for sketches whose points have different names, with the exact condition for a drawing to exist (C123_defined). Refuted: two points with the same name put lines elsewhere (C123_names_refuted); the default line style None of the points built on a line makes detail_scene raise ValueError (C123_default_refuted).

* `C123_coordinates` [A4]
* `C123_default_refuted` [A4]
* `C123_defined` [A4]
* `C123_drawn_partial` [A4]
* `C123_names_refuted` [A4]

### C124: The bounding box of a sketch holds its operations

*partial*, in `PropDetail.v`.  The box holds what all operations make and is the smallest one holding their defining points; it is the smallest one without splines. Refuted: a spline makes it too large (C124_spline_refuted); discs and labels of the drawing are out of the box which the scene gets (C124_drawing_refuted).

* `C124_box_partial` [A2]
* `C124_defined` [A2]
* `C124_drawing_refuted` [A4]
* `C124_spline_refuted` [A4]

### C125: The Python code of an operation makes the operation again

*partial*, in `PropPython.v`.  The code is a call which can be read in one way, and the constructor makes the same attributes, when line style and colour are None and texts have no quote, backslash or line end. Refuted: line styles and colours are printed as nothing, which is a syntax error for lines and splines with their defaults (C125_style_refuted); quotes are not escaped (C125_quote_refuted); the text nan is printed bare (C125_nan_refuted). The id is not part of the code.

* `C125_code_partial` [A0]
* `C125_is_float` [A0]
* `C125_nan_refuted` [A0]
* `C125_quote_refuted` [A0]
* `C125_rebuilt_partial` [A0]
* `C125_style_refuted` [A0]

### C126: A triangular arrow head is the triangle asked for

*partial*, in `PropArrow.v`, `PropMore.v`.  Proved with both sides and no axial offset: the polygon has the tip and the ends of the base, which are determined by the direction, the length and the half width; it depends on the orientation only, moves with the anchor, and the angle is the one at the tip. Refuted: with one side or an axial offset an AttributeError is raised, and the tip point is stale after a transformation.

* `C126_angle` [A4]
* `C126_moved` [A3]
* `C126_offset_refuted` [A3]
* `C126_scaled` [A3]
* `C126_side_refuted` [A3]
* `C126_sides` [A0]
* `C126_transformed_refuted` [A3]
* `C126_triangle_partial` [A3]
* `C126_unique` [A3]

### C127: A curvy arrow head is a closed symmetric outline

*partial*, in `PropArrow.v`.  Proved with both sides and no axial offset: a closed loop by the tip, the left and the right ends with the curves asked for, and a null segment added. Refuted: it is symmetric only when the depth is zero (or the head is a point); one side or an axial offset raises an AttributeError.

* `C127_outline_partial` [A4]
* `C127_side_refuted` [A3]
* `C127_symmetric_refuted` [A3]

### C128: The import of a DXF file gives one item for each entity, at its place

*partial*, in `PropImport.v`.  Proved: exactly which model spaces are imported without exception, one item per supported entity in order, with exactly the points of the entity for lines, circles, arcs with angles in [0, 360], ellipses whose major axis is not the upward vertical, polylines with bulges >= 0 and splines with uniform clamped knots without weights. Refuted: polylines give lists; knots and weights are ignored, so that a point which is not of the curve is shown.

* `C128_defined` [A4]
* `C128_ignored_refuted` [A4]
* `C128_items_partial` [A4]
* `C128_knots_refuted` [A4]
* `C128_list_refuted` [A4]

### C129: A pattern file gives the pattern back

*partial*, in `PropValFile.v`.  Proved for every pattern whose unit is a non-empty text, whose scopes are named, built with the measurements and evaluated, with writable operations, and whose ids are not interleaved and above the last one of the process; the file of measurements is found. Refuted: no unit, measurements not found, scope without name; interleaved ids are C98_scopes_refuted. Missing: the style of splines (C43).

* `C129_measurements_refuted` [A4]
* `C129_required` [A4]
* `C129_round_trip_partial` [A4]
* `C129_unit_refuted` [A4]
* `C129_unnamed_refuted` [A4]

### C130: The details of a pattern file are read and kept

*partial*, in `PropValFile.v`.  Proved: exactly which modelings and details are accepted once the calculations are read and evaluated, and what is then the scope. Refuted: the pattern keeps neither the modeling nor the details.

* `C130_details` [A4]
* `C130_lost_refuted` [A4]
* `C130_required` [A4]

### C131: Dates are understood exactly when they are written as dates

*proved*, in `PropDate.v`.  For every text: the accepted texts are exactly the written dates and times, and the text of a date is read back. Beside the claim: the text of a time (str of a datetime) is not accepted (C131_text_refuted), nor a plain date where a time is asked (C131_date_refused).

* `C131_date_refused` [A0]
* `C131_dates` [A0]
* `C131_text_refuted` [A0]
* `C131_times` [A0]
* `C131_written` [A0]

### C132: Personal data hold what the keywords give

*proved*, in `PropDate.v`.  For every keyword arguments. Beside the claim: a name None is kept as the text None, an unknown keyword is ignored, a birth date given as a time stays a time (the three _refuted theorems).

* `C132_none_refuted` [A0]
* `C132_personal` [A0]
* `C132_plain_refuted` [A0]
* `C132_unknown_refuted` [A0]

### C133: Custom Valentina measurements are one object under both of their names

*proved*, in `PropVit.v`.  For every sequence. Beside the claim: distinct Valentina names can clash (@a and C_a), a name with @ inside or a space is not found under the name given, an iteration gives the custom measurements twice. The import of Measurements, which does not exist, is repaired.

* `C133_accepted` [A0]
* `C133_clash_refuted` [A0]
* `C133_formula` [A0]
* `C133_found` [A0]
* `C133_iteration_refuted` [A0]
* `C133_own_name_refuted` [A0]
* `C133_set` [A0]
* `C133_value` [A0]

### C134: A file of measurements is read exactly when it has its parts

*partial*, in `PropVit.v`.  Proved for every tree. Refuted: the format shown in the comment of the module (without customer) is refused, a comment among the measurements stops the reading, the unit of the file is not given to the measurements.

* `C134_comment_refuted` [A0]
* `C134_file` [A0]
* `C134_format_refuted` [A0]
* `C134_unit_refuted` [A0]

### C135: The bisectors of a triangle bisect its angles

*partial*, in `PropTriangle.v`.  The lines are the medians (C135_medians); they bisect an angle exactly when its two sides are equal (C135_bisectors_partial), not in general (C135_bisectors_refuted).

* `C135_bisectors_partial` [A3]
* `C135_bisectors_refuted` [A3]
* `C135_medians` [A2]

### C136: The kind of a triangle is the one of its sides and angles

*partial*, in `PropTriangle.v`.  As written every question raises AttributeError (C136_kinds_refuted). With the cache repaired the perimeter and the questions about the sides are right (C136_repaired_partial), those about the angles are wrong (C136_obtuse_refuted, C136_acute_refuted) and is_oblique is the negation of is_equilateral.

* `C136_acute_refuted` [A4]
* `C136_directions` [A4]
* `C136_kinds_refuted` [A2]
* `C136_oblique_refuted` [A3]
* `C136_obtuse_refuted` [A4]
* `C136_repaired_partial` [A3]

### C137: The part of a line in a box

*partial*, in `PropTriangle.v`.  The points are on the line and on two sides of the box (or their extensions); they are the ends of the part in the box for lines through its centre. Refuted: other lines can give points out of the box, vertical lines raise ZeroDivisionError, distances between abscissae raise TypeError.

* `C137_centred_partial` [A2]
* `C137_distance_refuted` [A0]
* `C137_outside_refuted` [A2]
* `C137_points_partial` [A2]
* `C137_vertical_refuted` [A2]

### C138: Rounding and comparing with tolerance

*partial*, in `PropTriangle.v`.  rint, ceil_int, cmp, clamp and the tolerance exactly as stated over the reals; almost_equal is not symmetric (C138_symmetric_refuted).

* `C138_ceil` [A2]
* `C138_clamp` [A2]
* `C138_close` [A2]
* `C138_cmp` [A2]
* `C138_epsilon` [A2]
* `C138_middle` [A2]
* `C138_range` [A2]
* `C138_rint` [A2]
* `C138_symmetric_refuted` [A2]
* `C138_vector_rint` [A2]

### C139: Measurements saved in a YAML file are read back

*partial*, in `PropYaml.v`.  Saving raises LookupError and empties the file, loading raises LookupError (encoding 'uft8'). With a known codec: the measurements come back in the order of the names with the same names, texts and expressions of the same worth; a number comes back as a text and its value has three digits (refuted for the value).

* `C139_load_refuted` [A0]
* `C139_round_partial` [A0]
* `C139_save_refuted` [A0]
* `C139_taken` [A0]
* `C139_two_values` [A0]
* `C139_value_refuted` [A0]

### C140: The table of standard measurements is complete

*proved*, in `PropYaml.v`.  The file is modelled from the YAML value on; names which are floating-point numbers are not modelled. The file of the repository is transcribed by a script.

* `C140_accepted` [A0]
* `C140_found` [A0]
* `C140_shipped` [A0]

### C141: The database of fibres holds the fibres of the file

*partial*, in `PropYaml.v`.  Proved for the files of the expected shape; refuted: the file of the repository (Fibres for Fibers), the sources of synthetic fibres, a refused file leaves fibres.

* `C141_atomic_refuted` [A0]
* `C141_loaded_partial` [A0]
* `C141_missing` [A0]
* `C141_shipped_refuted` [A0]
* `C141_source_refuted` [A0]

### C142: The database of stitches holds the stitches of the file

*partial*, in `PropMore5.v`, `PropYaml.v`.  Refuted: nothing is ever added, the file of the repository is refused, a stitch needs all its numbers.

* `C142_accepted` [A0]
* `C142_loaded_refuted` [A0]
* `C142_missing` [A0]
* `C142_shipped_refuted` [A0]
* `C142_unknown_refuted` [A0]

### C143: Fabrics, seams and machines can be described

*partial*, in `PropYaml.v`.  Refuted for the fabrics and the seams; a machine needs all its numbers and a misspelled argument.

* `C143_fabric_refuted` [A0]
* `C143_machine_partial` [A0]
* `C143_seam_refuted` [A0]
* `C143_spelling_refuted` [A0]

### C144: The bounding box of a path

*partial*, in `PropPathBox.v`.  Every drawing history. Holds for lines, curves and upright arcs, least for the control points; refuted for curves (not least), rounded corners, turned arcs, stringed curves.

* `C144_arc_refuted` [A4]
* `C144_corner_refuted` [A4]
* `C144_curve_refuted` [A4]
* `C144_defined` [A4]
* `C144_holds_partial` [A4]
* `C144_least` [A4]
* `C144_raises` [A4]
* `C144_stringed_refuted` [A4]
* `C144_tight` [A4]

### C145: Homogeneous vectors stand for points

*partial*, in `PropHomogeneous.v`, `PropMore5.v`.  With weight one the images and compositions are right, lists are read in order; refuted for other weights (lost by each operation), for arithmetic with a homogeneous right operand, for from_list of the class.

* `C145_arithmetic_refuted` [A2]
* `C145_clone_refuted` [A2]
* `C145_compose_partial` [A2]
* `C145_compose_refuted` [A2]
* `C145_difference` [A1]
* `C145_equal` [A2]
* `C145_from_list` [A0]
* `C145_from_list_refuted` [A0]
* `C145_image_partial` [A2]
* `C145_in_place` [A1]
* `C145_point` [A2]
* `C145_products` [A1]
* `C145_sum` [A1]
* `C145_to_vector_refuted` [A2]
* `C145_weight_refuted` [A2]

### C146: Normalised vectors have length one

*partial*, in `PropHomogeneous.v`.  to_normalised is right for every non null vector of another class; the class does not keep the length, and its vectors cannot be transformed, divided or normalised.

* `C146_built_refuted` [A0]
* `C146_operations_refuted` [A3]
* `C146_scaled_refuted` [A3]
* `C146_unit` [A3]

### C147: Copies of transformations

*partial*, in `PropHomogeneous.v`.  Lists of nine coefficients and typed copies of plane transformations are right; affine copies, plane copies without type and numbers are refuted.

* `C147_affine_refuted` [A0]
* `C147_list` [A0]
* `C147_mixed_refuted` [A1]
* `C147_number_refuted` [A1]
* `C147_plane_copy` [A1]
* `C147_plane_refuted` [A0]

### C148: A file is found in the directories

*partial*, in `PropFiles.v`.  Decided for every tree and list of directories; refuted for one directory given as a str, and for bytes with a str name.

* `C148_bytes_refuted` [A0]
* `C148_characters_refuted` [A0]
* `C148_found` [A0]
* `C148_missing` [A0]
* `C148_relative_refuted` [A0]
* `C148_str_refuted` [A0]

### C149: Absolute paths and parents

*partial*, in `PropFiles.v`.  Place, normal form, idempotence, parents of absolute paths proved; refuted: uniqueness (two slashes), paths which lead nowhere, parents of relative paths and of paths with a final slash.

* `C149_again` [A0]
* `C149_home` [A0]
* `C149_normal` [A0]
* `C149_nowhere_refuted` [A0]
* `C149_other_home` [A0]
* `C149_parent` [A0]
* `C149_parent_of_file` [A0]
* `C149_parent_refuted` [A0]
* `C149_place` [A0]
* `C149_unique_partial` [A0]
* `C149_unique_refuted` [A0]

### C150: The description of the platform

*partial*, in `PropPlatform.v`.  Right for Linux files of the usual form; refuted for other lines with the word, colons in names, missing frequency, other systems. The rounding of the frequency is a parameter.

* `C150_cores_partial` [A0]
* `C150_cores_refuted` [A0]
* `C150_cpu_partial` [A0]
* `C150_cpu_refuted` [A0]
* `C150_described_partial` [A0]
* `C150_frequency_refuted` [A0]
* `C150_memory` [A0]
* `C150_systems_refuted` [A0]

### C151: The configuration of the messages

*partial*, in `PropPlatform.v`.  What setup_logging makes of every configuration is decided; refuted on macOS (escapes kept), on other systems and for names which are no level. dictConfig is a parameter.

* `C151_file` [A0]
* `C151_level` [A0]
* `C151_level_refuted` [A0]
* `C151_osx_refuted` [A0]
* `C151_prepared` [A0]
* `C151_systems_refuted` [A0]

### C152: The sketches of the geometry engine

*partial*, in `PropPlan.v`.  Refuted: the module cannot be imported before python 3.14 and no primitive can be made through a sketch; how calls bind their arguments and Distance are proved.

* `C152_call` [A0]
* `C152_direct_refuted` [A0]
* `C152_distance` [A3]
* `C152_import_refuted` [A0]
* `C152_import_repaired` [A0]
* `C152_lines_refuted` [A0]
* `C152_points_refuted` [A2]

### C153: The Qt binding of the application

*partial*, in `PropShim.v`.  Choice of the binding, import of every common member, of the moved members which are true, and of nothing else, for all environments and bindings. Refuted: a moved member which is false is replaced by its module; qApp takes the name QApplication; unreadable versions are an error although another binding is installed.

* `C153_application` [A0]
* `C153_choice` [A0]
* `C153_member` [A0]
* `C153_none` [A0]
* `C153_nothing_else` [A0]
* `C153_order` [A0]
* `C153_qapp_refuted` [A0]
* `C153_signals_pyqt5` [A0]
* `C153_signals_pyside2` [A0]
* `C153_version_refuted` [A0]

### C154: The description of the package

*partial*, in `PropRelease.v`.  Termination, failure exactly on missing files, each reached file once, places of the lines and repeated includes, for all sources and finite sets of files. Refuted: two names of a file are two files; indented includes are text; a last line without newline runs into the next.

* `C154_again` [A0]
* `C154_directive` [A0]
* `C154_ends` [A0]
* `C154_missing` [A0]
* `C154_names_refuted` [A0]
* `C154_once` [A0]
* `C154_order` [A0]
* `C154_other` [A0]

### C155: The version of a release

*partial*, in `PropRelease.v`.  Version of the tag, lines changed and kept, repetition, refusal, for all tags and files. Refuted: any text with a digit at its start is a version.

* `C155_again` [A0]
* `C155_any_refuted` [A0]
* `C155_lines` [A0]
* `C155_plain` [A0]
* `C155_refused` [A0]
* `C155_version` [A0]

### C156: The application

*partial*, in `PropApp.v`.  Single application, signals of the scene, destinations of messages, execution of scripts and paths of options, for all histories and scripts. Refuted: unreadable scripts are reported to nobody.

* `C156_messages` [A0]
* `C156_paths` [A0]
* `C156_scene` [A0]
* `C156_script` [A0]
* `C156_script_refuted` [A0]
* `C156_single` [A0]

### C157: Recentering a polygon

*partial*, in `PropRecenter.v`.  The points move as described once the barycenter was asked for; the polygon keeps answering its former barycenter and edges, the call fails when nothing was asked, and a polygon of null area is torn.

* `C157_before_refuted` [A1]
* `C157_flat_refuted` [A4]
* `C157_moved_partial` [A4]
* `C157_stale_refuted` [A4]

### C158: Parallel and perpendicular lines at a point

*partial*, in `PropLine2.v`.  Above the tolerance of the test of parallelism; with a short direction the perpendicular is said to be parallel to the line.

* `C158_foot_partial` [A3]
* `C158_foot_refuted` [A3]
* `C158_orthogonal` [A2]
* `C158_orthogonal_at_abscissa` [A2]
* `C158_parallel` [A2]
* `C158_parallel_never_meets` [A2]

### C159: Reflections, the screen and matrices given by numbers

*proved*, in `PropLine2.v`.  

* `C159_nine_numbers` [A0]
* `C159_reflections` [A2]
* `C159_reflections_compose` [A2]
* `C159_rows` [A2]
* `C159_screen` [A2]

### C160: Vectors in double precision

*partial*, in `PropDouble.v`.  Adding and taking away does not always give back the vector, the sum is not associative, and the cross product of a huge vector with itself is not a number.

* `C160_add_commutes` [A4]
* `C160_associative_refuted` [A4]
* `C160_cancel_refuted` [A4]
* `C160_cross_exchanged` [A4]
* `C160_cross_self_partial` [A4]
* `C160_cross_self_refuted` [A4]
* `C160_distance_back` [A4]
* `C160_quarter_turn_at` [A2]
* `C160_quarter_turns` [A0]
* `C160_rounded` [A4]
* `C160_sub_self` [A4]

### C161: The ends of segments and curves in double precision

*partial*, in `PropDouble.v`.  Segments and quadratic curves (without overflow) end exactly at their points, cubic curves and lines start there; cubic curves and lines may miss the last point, and a null segment does not stay at its point.

* `C161_cubic_end_refuted` [A4]
* `C161_cubic_start_partial` [A4]
* `C161_line_end_refuted` [A4]
* `C161_line_start_partial` [A4]
* `C161_null_segment_refuted` [A4]
* `C161_quadratic_ends_partial` [A4]
* `C161_quadratic_overflow_refuted` [A4]
* `C161_segment_ends` [A4]

### C162: The middle in double precision

*partial*, in `PropDouble.v`.  Unless the sum of the coordinates overflows.

* `C162_between_partial` [A4]
* `C162_center` [A4]
* `C162_exchanged` [A4]
* `C162_overflow_refuted` [A4]
* `C162_same_partial` [A4]

### C163: Transformations in double precision

*partial*, in `PropDouble.v`.  All but the way back: a translation and the opposite one, or the screen twice, may not give back the point.

* `C163_back_refuted` [A4]
* `C163_identity` [A4]
* `C163_scaling` [A4]
* `C163_screen` [A4]
* `C163_screen_twice_refuted` [A4]
* `C163_translation` [A4]

### C164: Drawings on a grid in double precision

*proved*, in `PropGrid.v`.  For every grid whose step is a power of two between 2^-400 and 2^400; C164_off_grid shows that the hypothesis is needed.

* `C164_cancel` [A4]
* `C164_cross` [A4]
* `C164_cubic` [A4]
* `C164_length` [A4]
* `C164_length_exact` [A4]
* `C164_line` [A4]
* `C164_off_grid` [A4]
* `C164_quadratic` [A4]
* `C164_segment` [A4]
* `C164_split_cubic` [A4]
* `C164_split_quadratic` [A4]
* `C164_sums` [A4]
* `C164_transformation` [A4]

### C165: Decisions of the geometry engine in double precision

*partial*, in `PropDecide.v`.  Exact on every grid of at most 2^23 steps; in general proved for the ends of a segment (without overflow) and, with exact differences, no side is inverted. False in general: C165_collinear_refuted.

* `C165_collinear_refuted` [A4]
* `C165_crossing` [A4]
* `C165_ends_partial` [A4]
* `C165_inside` [A4]
* `C165_never_opposite_partial` [A4]
* `C165_orientation` [A4]
* `C165_same_side` [A4]
* `C165_sides` [A4]
* `C165_turns` [A4]

### C166: The accuracy of double precision

*partial*, in `PropAccuracy.v`.  Proved when the numbers are null or between 2^-500 and 2^500 in absolute value; false for smaller ones: C166_length_refuted.

* `C166_cross_partial` [A4]
* `C166_length_partial` [A4]
* `C166_length_refuted` [A4]
* `C166_segment_partial` [A4]
* `C166_side_partial` [A4]

### C167: Means and areas of polygons in double precision

*partial*, in `PropDoublePolygon.v`.  Proved for coordinates on a grid of step 2^e: the mean is the exact one rounded once and stays in the box, the area is exact in every order of the sum. False for decimal numbers: C167_mean_refuted, C167_area_refuted.

* `C167_area` [A4]
* `C167_area_refuted` [A4]
* `C167_mean` [A4]
* `C167_mean_inside` [A4]
* `C167_mean_refuted` [A4]

### C168: Sheets of paper in double precision

*partial*, in `PropDoublePaper.v`.  Proved: same names accepted, sides in mm, inches and points right to 1e-14 for every pow within one unit in the last place, mm_to_pt monotone. Refuted: consecutive sheets share a side exactly; inches are a whole number of points.

* `C168_fit_refuted` [A4]
* `C168_inches_refuted` [A4]
* `C168_monotone` [A4]
* `C168_page` [A4]
* `C168_sheets` [A4]

### C169: The accuracy of curves in double precision

*partial*, in `PropCurveAccuracy.v`.  Proved for all coordinates, parameters in [0,1] and accurate pow: bounds 24, 300, 8, 3.1, 7, 10 units of rounding of the size, underflow included. Refuted: a curve stays in the box of its control points.

* `C169_box_refuted` [A4]
* `C169_cubic` [A4]
* `C169_line` [A4]
* `C169_quadratic` [A4]
* `C169_segment` [A4]
* `C169_split_cubic` [A4]
* `C169_split_quadratic` [A4]

### C170: The accuracy of areas and perimeters in double precision

*partial*, in `PropArea.v`.  Proved: bounds for polygons (any order of the sum), triangles, perimeters (edges neither tiny nor huge), sense right when the area exceeds the error, sums from left to right accurate. Refuted: the sense of every polygon is right.

* `C170_area` [A4]
* `C170_perimeter_partial` [A4]
* `C170_plain_sum` [A4]
* `C170_sense` [A4]
* `C170_sense_refuted` [A4]
* `C170_triangle` [A4]

### C171: The accuracy of rotations in double precision

*partial*, in `PropRotation.v`.  Proved for all vectors, angles of at most one turn and accurate cos and sin: bounds 35 (rotate), 38 (matrix), 53 (length), 15, 17, 17 units of rounding; radians for every angle to 2 units. Refuted for every accurate cos: a quarter of a turn is exact.

* `C171_from_angle` [A4]
* `C171_length` [A4]
* `C171_matrix` [A4]
* `C171_quarter_refuted` [A4]
* `C171_radians` [A4]
* `C171_rotate` [A4]

### C172: The accuracy of directions in double precision

*partial*, in `PropDirection.v`.  Proved for all ordinary vectors which are not null: cosines and sines in [-1, 1] and right to 12/2^53, projections, deviations and distances to 8/2^53 of the length, unit vectors to 5/2^53, angles to 6/10^6 degrees with the right sign when the cross product exceeds its error. Refuted for every accurate acos: the angle of a vector with itself is null.

* `C172_angle` [A4]
* `C172_cosine` [A4]
* `C172_distance` [A4]
* `C172_projection` [A4]
* `C172_self_refuted` [A4]
* `C172_sine` [A4]
* `C172_unit` [A4]

### C173: The accuracy of intersections in double precision

*partial*, in `PropIntersection.v`, `PropIntersectionAny.v`.  Proved: abscissae, points of lines and segments, the decision for any segments away from their ends, uniqueness of the meeting point. Refuted: the order of the lines does not matter (C173_order_refuted); lines which are not parallel always have an intersection (C173_short_refuted).

* `C173_abscissae` [A4]
* `C173_any_apart` [A4]
* `C173_any_cross` [A4]
* `C173_apart` [A4]
* `C173_cross` [A4]
* `C173_meet` [A2]
* `C173_order_refuted` [A4]
* `C173_point` [A4]
* `C173_segment` [A4]
* `C173_short_refuted` [A4]

### C174: The distance of a point to a segment in double precision

*partial*, in `PropDistance.v`.  Proved: the bound for every case, existence of the least distance. Refuted: the distance is null for a point of the segment given by interpolate (C174_on_refuted). Only for differences of coordinates which are doubles.

* `C174_distance` [A4]
* `C174_least` [A3]
* `C174_on_refuted` [A4]

### C175: The drift of repeated rotations in double precision

*proved*, in `PropTurns.v`.  By induction on the list of rotations, from C171_rotate.

* `C175_back` [A4]
* `C175_drift` [A4]
* `C175_length` [A4]

### C176: The drift of paths of relative moves in double precision

*partial*, in `PropDrift.v`, `PropDriftGrid.v`.  Proved: the bound for every list of segments, absolute points end the drift, paths on a grid are exact and closed ones come back. Refuted: a path of relative moves whose sum is null comes back to its start (C176_closed_refuted).

* `C176_absolute` [A4]
* `C176_closed_refuted` [A4]
* `C176_grid` [A4]
* `C176_grid_closed` [A4]
* `C176_path` [A4]

### C177: The accuracy of transformations in double precision

*partial*, in `PropCompose.v`, `PropComposeGrid.v`.  Proved: the bounds for one transformation, for a product and for two in a row; both exact for whole coefficients on a grid. Refuted: the product acts exactly as its factors (C177_associative_refuted). The bounds only for coefficients of at most one, and the order of the sums from left to right.

* `C177_apply` [A4]
* `C177_associative_refuted` [A4]
* `C177_compose` [A4]
* `C177_grid` [A4]

## Disagreements between the claims and the code

One line for each theorem which refutes a part of a claim.

* `C03_distinct_returns_refuted`: C03 is false of the code: two increments by one return the same value, because the value is read again after the lock was released.
* `C05_one_instance_refuted`: C05 is false of the decorator: two threads can build and return different objects.
* `C11_cubic_root_normalised_refuted`: cubic_root_normalised does not return roots: [**1/3] is a division by three.
* `C12_orientation_null_rejected_refuted`: The code means to reject the null vector (Vector.py 295), but does not.
* `C13_is_parallel_exact_refuted`: "Parallel vectors are exactly those with a null cross product" is false: the test rounds the cross product to 7 digits, so that small perpendicular vectors are reported parallel.
* `C14_linear_product_defined_refuted`: The linear class Transformation2D: the product is not always defined (the type check of a generic product calls a missing method), and right when it is.
* `C15_scalar_rigid_refuted`: "A length is left unchanged by a rigid transformation" is false: RotationAt 60 degrees halves lengths.
* `C17_quadratic_tangent1_refuted`: The end tangent of a quadratic curve never returns.
* `C19_end_refuted`: A spline given by its knots cannot be evaluated at its end.
* `C19_naive_refuted`: The naive evaluation never succeeds inside the domain.
* `C19_unclamped_refuted`: Before the knot number [degree] points of the other end are mixed in.
* `C20_end_refuted`: At the end of the domain the old uniform spline gives its last point, the new one raises.
* `C21_line_intersection_refuted`: C21: the statement "two lines that are not parallel have their intersection point computed" fails for short direction vectors: the parallelism test compares the cross product with an absolute tolerance of 5e-8.
* `C22_projected_point_refuted`: C22
* `C25_contain_point_refuted`: C25: contain_point accepts points off the segment and refuses points of it.
* `C27_after_close_refuted`: Path building follows the pen
* `C27_close_refuted`: C27. A path which begins by a curve cannot be closed with a rounded corner; without a radius it can.
* `C27_move_refuted`: Path building follows the pen
* `C27_pen_refuted`: Path building follows the pen
* `C27_stringed_refuted`: The stringed quadratic curve is never drawn; the stringed cubic curve is added, and the point where it stops, from which what follows should start, is not implemented.
* `C28_arc_refuted`: Transforming a path commutes with evaluating it
* `C28_corner_refuted`: The same when a direction was read before.
* `C28_defined_refuted`: A rounded path cannot be put upside down with the screen transformation.
* `C28_side_refuted`: The sides drawn by a directional command are trimmed at the rounded corners after a transformation only.
* `C29_segment_refuted`: Circle and segment intersections are exact
* `C30_inside_refuted`: Arc angular domain membership and length
* `C30_length_refuted`: Twenty degrees counterclockwise, or three hundred and forty clockwise.
* `C31_no_cycle_refuted`: Sketch dependencies never form a cycle
* `C32_dependencies_refuted`: Expression dependencies are complete
* `C33_contact_refuted`: Sketch evaluation places every point as specified
* `C35_current_refuted`: Formula rewriting replaces exactly the identifiers
* `C35_customs_refuted`: The statement is false when one of the conditions of [plain] is dropped: two custom measurements, a pair of points which is the beginning of another one, the current length written twice.
* `C35_pairs_refuted`: Formula rewriting replaces exactly the identifiers
* `C35_word_refuted`: ... and when the name of a measurement contains the name of a special function.
* `C36_duplicate_refuted`: The general claim is false: a name can be given twice.
* `C37_identifier_refuted`: Otherwise not: the empty name, a name which starts by a digit, a fraction.
* `C38_absent_refuted`: XML attributes survive a write and read
* `C38_comma_refuted`: XML attributes survive a write and read
* `C38_lists_refuted`: Without the conditions it is false: an empty list cannot be read back, None is read back as the default value when there is one.
* `C39_compact_refuted`: The grammar of SVG allows no space after a letter, newlines, and T has two arguments.
* `C39_ends_refuted`: but it may not end otherwise.
* `C39_newline_refuted`: SVG path data is read as the SVG grammar says
* `C39_smooth_refuted`: SVG path data is read as the SVG grammar says
* `C40_after_close_refuted`: SVG path commands draw the right geometry
* `C40_smooth_cubic_refuted`: SVG path commands draw the right geometry
* `C40_smooth_quadratic_refuted`: SVG path commands draw the right geometry
* `C40_subpath_refuted`: SVG path commands draw the right geometry
* `C40_vertical_refuted`: SVG path commands draw the right geometry
* `C41_list_refuted`: Anything after the first closing parenthesis is refused: so is every list of two transforms.
* `C41_order_refuted`: SVG transforms are read in order and survive a round trip
* `C41_round_trip_refuted`: What is written is never read back: nine numbers with spaces are read as one number.
* `C41_scale_refuted`: SVG transforms are read in order and survive a round trip
* `C41_skew_refuted`: SVG transforms are read in order and survive a round trip
* `C41_spaces_refuted`: SVG transforms are read in order and survive a round trip
* `C42_after_refuted`: An item after a group is rendered with the style of the group.
* `C42_linecap_refuted`: The attribute stroke-linecap of an item has the python name stroke_line_cap: it is lost.
* `C42_none_refuted`: The attribute fill, which the classes of items have, resets the style of the group when it is not given.
* `C42_semicolon_refuted`: A style which ends with a semicolon is refused.
* `C43_default_refuted`: C43: a point made without the style of its line, as by default, cannot be written.
* `C43_spline_refuted`: C43: the style of the line of a spline is lost, its colour becomes a text.
* `C44_again_refuted`: An id which is not larger than the last one is refused: the second reading of a file in a process.
* `C44_dangling_refuted`: C44: a calculation which refers to a skipped one stops the reading.
* `C44_evaluation_refuted`: C44: a piece can be read but not evaluated: here the base of a point is a line.
* `C44_unknown_refuted`: A tag which is not in the list stops the reading.
* `C45_negative_refuted`: For every negative bulge the arc has a negative radius, is centred on the centre of the opposite bulge, and misses the middle of the right arc.
* `C47_read_refuted`: the geometry of a new item is read before the update: it has no entry, it is not found
* `C47_remove_refuted`: an item cannot be removed
* `C47_stale_refuted`: an item marked as dirty keeps its old box
* `C48_read_refuted`: an item whose geometry was read before the update is found nowhere
* `C49_segments_refuted`: degree 1: an error after the last segment, whatever the points
* `C50_cover_refuted`: otherwise they never do: rows and columns are exchanged
* `C52_kept_refuted`: Three conversions out of six change the length, of every length but zero
* `C52_round_trip_refuted`: Typographic unit conversions are inverse
* `C53_denier_refuted`: Yarn count conversions are inverse
* `C53_metric_refuted`: and back from the metric number: right only for the one count of 1000 tex
* `C55_bezier_refuted`: Cloned styles equal the original
* `C55_path_refuted`: Cloned styles equal the original
* `C56_file_refuted`: TeX output is balanced and ordered
* `C57_hull_refuted`: Two points seen in the same direction from the lowest one.
* `C57_twice_refuted`: The lowest point given twice is twice in the hull.
* `C58_perimeter_refuted`: The perimeter of a triangle always raises.
* `C60_quadratic_fat_line_refuted`: The fat line of a quadratic curve always raises.
* `C61_interpolated_length_refuted`: A null or negative step never ends.
* `C61_quadratic_length_braking_refuted`: The length of a quadratic Bezier curve is its arc length
* `C61_quadratic_length_refuted`: The length of a quadratic Bezier curve is its arc length
* `C62_cubic_length_refuted`: Every curve raised from a quadratic one has no length.
* `C62_t_at_length_refuted`: The length of a cubic Bezier curve is computed on consecutive pieces of it
* `C62_t_beyond_length_refuted`: The length of a cubic Bezier curve is computed on consecutive pieces of it
* `C63_area_refuted`: C63: the area is the one swept from the origin, not the one up to the chord.
* `C64_closest_point_refuted`: C64: closest point
* `C64_quadratic_closest_point_refuted`: On a quadratic curve no point is ever returned.
* `C65_intersect_line_refuted`: C65: intersections with a line
* `C66_quadratic_refuted`: The quadratic uniform spline through aligned equidistant points runs from the middle of the first two points to the middle of the last two; its conversion does not.
* `C66_to_bezier_refuted`: Conversions between cubic Bezier curves and uniform splines
* `C67_stale_refuted`: After an in place transformation the answers already computed remain: the unit square scaled by two still has perimeter 4 and area 1.
* `C68_simple_refuted`: A small bow tie is reported simple.
* `C69_convex_refuted`: A clockwise square with a vertex in the middle of a side is reported not convex, although it turns to the left or straight on at every vertex in the other direction.
* `C70_axes_refuted`: The extent is measured from the origin of the plane: a translation changes the axes.
* `C71_crossing_refuted`: C71. The other test, which nothing calls: it raises exactly when an edge crosses the horizontal line of the point, and otherwise answers no.
* `C71_inside_refuted`: C71. is_point_inside never answers true: it fails as soon as the horizontal line through the point has vertices above and vertices below.
* `C72_short_refuted`: A polygon whose edges are not longer than the threshold is lost, however large it is.
* `C72_simplify_refuted`: When the first vertex is doubled a corner may be lost, with threshold 0.
* `C73_name_refuted`: Regular polygons
* `C74_arc_bounding_box_refuted`: Circles
* `C74_arc_distance_refuted`: Circles
* `C74_crossing_circles_refuted`: Circles
* `C74_perimeter_refuted`: Circles
* `C74_rotated_arc_refuted`: Circles
* `C74_touching_circles_refuted`: Circles
* `C75_bounding_box_refuted`: Ellipses
* `C75_inside_refuted`: Ellipses
* `C75_major_vector_refuted`: The length of the major axis vector is the angle.
* `C75_matrix_refuted`: Ellipses
* `C75_rotation_refuted`: Ellipses
* `C75_tall_ellipse_refuted`: Ellipses
* `C75_vectors_refuted`: The vectors of the axes take the angle for a length and the radius for an angle.
* `C76_clockwise_refuted`: From 90 degrees down to 0: the curve goes up to 180.
* `C77_small_radius_refuted`: Arcs given by their end points
* `C77_start_refuted`: Arcs given by their end points
* `C79_clone_refuted`: Copies of paths, polygons and polylines as paths
* `C79_polyline_refuted`: The points of a polyline are taken as offsets.
* `C80_order_refuted`: The value depends on when it is read: read too early, it is lost.
* `C81_bool_refuted`: A boolean given as a python bool is refused, whatever the other keywords are.
* `C83_text_refuted`: The text of an element is lost when it is read, whatever it is.
* `C84_long_refuted`: A colour text is read as the colour it names or refused
* `C84_short_refuted`: C84: what is not #rrggbb is not always refused, nor read as in CSS: three digits, eight digits, signs.
* `C84_sign_refuted`: A colour text is read as the colour it names or refused
* `C85_valentina_refuted`: Every name of a Valentina colour is known, but exactly five of them have the colour of another set.
* `C86_default_refuted`: A yarn tells its counts
* `C88_color_refuted`: A colour without a name, such as any colour given by its components or its text, is not drawn
* `C88_dash_refuted`: TikZ options of a style
* `C88_invisible_refuted`: and an invisible line has the options of a line with no style, so it is drawn
* `C91_directory_refuted`: C91: the directory of a document
* `C93_name_refuted`: Cast positions of an item
* `C93_vector_refuted`: an item with one position: the loop is on the position itself
* `C94_rectangle_refuted`: no painter draws a rectangle, and only the Qt painter draws an ellipse, a polygon or a path
* `C95_angle_refuted`: [angle] is the supplement of the included angle 4 atan b, and so right only for a quarter of circle.
* `C97_vertical_refuted`: Ellipses read from DXF
* `C98_scopes_refuted`: C98: two sketches of a process whose ids are interleaved can be written but not read again.
* `C99_clone_error_refuted`: ** C99: a clone of a B-spline never succeeds; which error is raised depends on the number of points
* `C99_spline_refuted`: No B-spline has a clone.
* `C100_rectangle_refuted`: A rotated rectangle is not the image of the rectangle.
* `C101_reverse_refuted`: C101. reverse() changes nothing, whatever the primitive.
* `C102_stale_refuted`: The length does not follow the points.
* `C103_zero_refuted`: A zoom by zero is refused after the viewport was changed: every point is then at the origin.
* `C104_early_refuted`: Without a scene the area does not follow the size.
* `C105_no_box_refuted`: Fitting shows the whole scene
* `C105_point_refuted`: A scene reduced to a point cannot be fitted, a scene without a box neither.
* `C108_lost_refuted`: Circles have no figure, cubic curves no element.
* `C108_page_refuted`: The scene is not put on the page.
* `C109_circle_refuted`: A circle is skipped, or a dot whatever its radius.
* `C109_corner_refuted`: The corner of the scene is at the margin of the PDF page only if it is the origin.
* `C109_driver_refuted`: PdfPainter must be given a driver.
* `C110_closed_refuted`: A closed path is not closed.
* `C110_curved_refuted`: A path which has a curve is not drawn.
* `C110_ellipse_refuted`: The angle of an ellipse is ignored.
* `C110_mirror_refuted`: In the files of to_svg, which does not flip the ordinate, the arcs are mirrored.
* `C110_quadratic_refuted`: A quadratic curve is transformed twice.
* `C110_rectangle_refuted`: A rectangle neither.
* `C111_thin_refuted`: An almost full circle may vanish.
* `C112_transformation_refuted`: The transformation of the scene is ignored.
* `C113_fill_refuted`: The outline of a filled item has the colour of the filling, selected or not.
* `C113_previous_refuted`: An item without any colour is drawn with the pen of the previous one.
* `C114_comment_refuted`: A document with a comment, a polygon or an ellipse at any depth of its groups cannot be read.
* `C114_polyline_refuted`: A polyline is read as an object of the class Polygon.
* `C114_shape_refuted`: Reading an SVG file gives its shapes
* `C115_keyword_refuted`: No element with a stroke can be made with a number as its stroke width.
* `C115_percent_refuted`: A percentage is written as the python name of its object.
* `C115_unit_refuted`: Lengths in points, pixels and picas are read as the same object, as those in em and ex.
* `C115_written_refuted`: A length with a unit is written as one letter, which cannot be read.
* `C116_comma_refuted`: A view box written with commas and spaces cannot be read.
* `C116_origin_refuted`: The view box from 10 to 15 is read as the interval from 10 to 5.
* `C117_default_refuted`: A rectangle without x or y, which is at zero in SVG, has no geometry.
* `C117_radius_refuted`: A horizontal radius alone, which rounds the corners in SVG, is ignored.
* `C119_comment_refuted`: What is written cannot be read back: the comment.
* `C119_path_refuted`: The path data, once read, cannot be written.
* `C119_transform_refuted`: An object with a transformation cannot be read back.
* `C120_ellipse_refuted`: Drawing a primitive in a scene draws the primitive
* `C120_line_refuted`: Drawing a primitive in a scene draws the primitive
* `C120_quadratic_refuted`: A quadratic spline is not drawn, an arc of an ellipse is drawn whole, a line is refused.
* `C120_splines_refuted`: Every other spline is refused, and nothing is drawn: one with its knots, a closed one, and any degree but three.
* `C121_arc_refuted`: The start of an arc is not drawn.
* `C121_item_arc_refuted`: Drawing a path draws its outline
* `C121_item_refuted`: Drawing a path draws its outline
* `C121_null_arc_refuted`: Drawing a path draws its outline
* `C121_stringed_refuted`: A stringed curve is left out silently.
* `C121_twice_refuted`: Drawing a path draws its outline
* `C122_ellipse_refuted`: The geometry of an elliptical arc is the whole ellipse; a path has an empty path, a text a null rectangle.
* `C122_path_refuted`: The geometry of an item is what it draws
* `C122_text_refuted`: The geometry of an item is what it draws
* `C123_default_refuted`: The line style of a construction line is None when it is not given: the sketch cannot be drawn.
* `C123_names_refuted`: Two points with the same name
* `C124_drawing_refuted`: The drawing is larger than the box which the scene is given.
* `C124_spline_refuted`: A spline makes the box too large.
* `C125_nan_refuted`: A text which float accepts is not always a number for Python.
* `C125_quote_refuted`: The quotes of a name are not escaped.
* `C125_style_refuted`: A line style or a colour is printed as nothing.
* `C126_offset_refuted`: A triangular arrow head is the triangle asked for
* `C126_side_refuted`: A head with one side, with none or with an axial offset is never made.
* `C126_transformed_refuted`: After a transformation the tip point is not the tip of the polygon.
* `C127_side_refuted`: A curvy arrow head is a closed symmetric outline
* `C127_symmetric_refuted`: It is symmetric exactly when its sides are straight (or when it is a point).
* `C128_ignored_refuted`: The knots and the weights of a spline are ignored,
* `C128_knots_refuted`: so that points which are not of the curve are shown.
* `C128_list_refuted`: The item of a polyline is a list, not a primitive.
* `C129_measurements_refuted`: A pattern whose file of measurements is not found, neither from the current directory nor beside the pattern
* `C129_unit_refuted`: A pattern without unit is written, then refused.
* `C129_unnamed_refuted`: A scope without name is not written.
* `C130_lost_refuted`: The pieces of fabric are not kept: a piece is the same one without its modeling and its details.
* `C131_text_refuted`: Not so for the times: the text of a time is not read back; a date is not a time.
* `C132_none_refuted`: A text given for a name is kept as it is; but nothing given is the text None.
* `C132_plain_refuted`: The birth date is not always a plain date.
* `C132_unknown_refuted`: A keyword which is not known is not an error.
* `C133_clash_refuted`: Two names which differ may be refused.
* `C133_iteration_refuted`: The custom measurements are there twice in an iteration.
* `C133_own_name_refuted`: A measurement is not always found by the name which was given.
* `C134_comment_refuted`: A comment among the measurements stops the reading.
* `C134_format_refuted`: The format shown in the comment of the module has no element customer: it is refused.
* `C134_unit_refuted`: The measurements do not get the unit of the file.
* `C135_bisectors_refuted`: The bisectors of a triangle bisect its angles
* `C136_acute_refuted`: The kind of a triangle is the one of its sides and angles
* `C136_kinds_refuted`: C136. Every question raises.
* `C136_oblique_refuted`: The kind of a triangle is the one of its sides and angles
* `C136_obtuse_refuted`: but those about the angles use the orientations of the edges: a right triangle is obtuse, an obtuse one is acute,
* `C137_distance_refuted`: The distances between abscissae are never found.
* `C137_outside_refuted`: For another line a point can be out of the box.
* `C137_vertical_refuted`: The part of a line in a box
* `C138_symmetric_refuted`: With the default tolerances, a vector can be almost equal to another which is not almost equal to it.
* `C139_load_refuted`: Loading always fails, and leaves the set as it is.
* `C139_save_refuted`: Saving always fails, and leaves an empty file.
* `C139_value_refuted`: evalf(3) of an integer of at most four digits
* `C141_atomic_refuted`: When the last section is missing the call fails, but the fibres of the first ones were added.
* `C141_shipped_refuted`: The file which comes with the program is refused: it writes Fibres.
* `C141_source_refuted`: The database of fibres holds the fibres of the file
* `C142_loaded_refuted`: Whatever the file, no stitch is ever added.
* `C142_shipped_refuted`: The file which comes with the program is refused: it writes Introduction and Classes (stitch.yaml 20-24).
* `C142_unknown_refuted`: A stitch of which a number is not known cannot be made.
* `C143_fabric_refuted`: A fabric can never be made, whatever is given.
* `C143_seam_refuted`: A seam never tells its name.
* `C143_spelling_refuted`: The stitch types, with the right spelling, are not looked at.
* `C144_arc_refuted`: An arc of a circle given as an ellipse turned by one degree: its ends are not both in the box.
* `C144_corner_refuted`: A corner at (3, 4) rounded with radius 1: the arc leaves the box of the path.
* `C144_curve_refuted`: A path of one curve: the box goes as far as the control point, which the curve does not reach.
* `C144_stringed_refuted`: A stringed curve has no geometry: no box for the whole path.
* `C145_arithmetic_refuted`: Nothing can be added to, subtracted from, multiplied by or compared with a homogeneous vector: errors, and never equal to the vector of the same coordinates.
* `C145_clone_refuted`: Homogeneous vectors stand for points
* `C145_compose_refuted`: A direction becomes a point: two translations are not their product.
* `C145_from_list_refuted`: Homogeneous vectors stand for points
* `C145_to_vector_refuted`: to_vector does not divide by the weight; a clone is equal to the vector exactly when the weight is 1.
* `C145_weight_refuted`: The weight is lost by each operation: the image of (2, 0, 2), which stands for (1, 0), by the translation by (1, 0) is (4, 0, 1).
* `C146_built_refuted`: Normalised vectors have length one
* `C146_operations_refuted`: A normalised vector cannot be transformed, divided or normalised again.
* `C146_scaled_refuted`: The class does not say that the magnitude is one: the product by a number is of the class, and so is what is built of any coordinates.
* `C147_affine_refuted`: No affine transformation can be copied by its constructor; the copy of a transformation of the plane fails unless its type is given, and then an affine one is taken too, which cannot be applied to any vector.
* `C147_mixed_refuted`: Copies of transformations
* `C147_number_refuted`: A number is no transformation: the error comes late, or not at all when the type is given.
* `C147_plane_refuted`: Copies of transformations
* `C148_bytes_refuted`: A file is found in the directories
* `C148_characters_refuted`: One directory given as a str is taken for the list of its characters; given as bytes it is right for a name in bytes and never gives anything for a str.
* `C148_relative_refuted`: A file is found in the directories
* `C148_str_refuted`: A file is found in the directories
* `C149_nowhere_refuted`: A path which leads nowhere can have an absolute path which leads somewhere.
* `C149_parent_refuted`: A directory written with a slash at its end is its own parent, the parent of a relative name is no path, and dots are names.
* `C149_unique_refuted`: Two paths which lead to the same place can have different absolute paths: two slashes at the start are kept.
* `C150_cores_refuted`: Any other line which has the word counts too.
* `C150_cpu_refuted`: The description of the platform
* `C150_frequency_refuted`: Without the line of the frequency, which many processors do not give, there is an error.
* `C150_systems_refuted`: And there is one on every other system.
* `C151_level_refuted`: So the whole set up fails when the variable holds no name of a level.
* `C151_osx_refuted`: On the third system the formatter is the one with escapes, and they stay.
* `C151_systems_refuted`: Elsewhere the messages cannot be set up.
* `C152_direct_refuted`: Neither can a line be made directly; a segment can, alone, without a sketch, a name or a description.
* `C152_import_refuted`: The module cannot be imported where annotations are evaluated; it can be since python 3.14.
* `C152_lines_refuted`: The sketches of the geometry engine
* `C152_points_refuted`: The sketches of the geometry engine
* `C153_qapp_refuted`: qApp, which the table sends to QApplication.instance(), takes the place of QApplication when the binding has none, and has no name of its own.
* `C153_version_refuted`: Versions which cannot be read are not an absence of the binding: the error goes to the user, the other binding is not tried.
* `C154_names_refuted`: Not what one expects: two names of a file are two files; an include in a paragraph of its own indentation is text; and the last line of a file which does not end it runs into the next one.
* `C155_any_refuted`: Not what one expects: any text with a digit at its start is a version, such as the commit which git gives when there is no tag, or one which does not leave a python file; and without the lines of the tag and of the commit, as in the package, these are not written.
* `C156_script_refuted`: Not what one expects: a file which cannot be read or decoded, or cannot be compiled for another reason, is reported to nobody.
* `C157_before_refuted`: On a polygon nothing was asked of, the call fails.
* `C157_flat_refuted`: A polygon of null area is torn: its first point goes to the origin, the others stay.
* `C157_stale_refuted`: The moved polygon still answers the barycenter it had before, and keeps its former edges.
* `C158_foot_refuted`: With a short direction the line and its own perpendicular are said to be parallel.
* `C160_associative_refuted`: Nor is the sum associative.
* `C160_cancel_refuted`: Adding and taking away again may not give back the vector: 0.1 + 0.2 - 0.2.
* `C160_cross_self_refuted`: Vectors in double precision
* `C161_cubic_end_refuted`: But its last point may be missed: with the abscissae 0.1 0.1 0.3 0.7 the curve ends after 0.7.
* `C161_line_end_refuted`: The ends of segments and curves in double precision
* `C161_null_segment_refuted`: A segment of null length does not stay at its point: 0.1 at the parameter 0.2.
* `C161_quadratic_overflow_refuted`: The ends of segments and curves in double precision
* `C162_overflow_refuted`: Far points have no middle: the sum overflows although the middle is a point.
* `C163_back_refuted`: A translation and the opposite one may not give back the point, nor the screen twice: 1 - (1 - 0.1).
* `C163_screen_twice_refuted`: Transformations in double precision
* `C165_collinear_refuted`: Off the grid a point which is not on the line can be said to be: the points 0, (1 + 2^-52, 1) and (1, 1 - 2^-53).
* `C166_length_refuted`: The length of a very small vector can be null: the square of 2^-600 is.
* `C167_area_refuted`: Off the grid the area depends on the order of the sum: the products 0.1, 0.2, 0.3.
* `C167_mean_refuted`: Off the grid the mean of three times the point 0.1 is another point, outside of the box of the points.
* `C168_fit_refuted`: The sides of the sheets of a series do not fit: half a sheet is not the next sheet. With a correct pow, the width of A2 is not the height of A3, though they are the same side.
* `C168_inches_refuted`: Seven inches in millimetres are not the number of points of seven inches.
* `C169_box_refuted`: A curve leaves the box of its control points: three or four points at 0.1 or 0.3 give a curve which moves.
* `C170_sense_refuted`: The accuracy of areas and perimeters in double precision
* `C171_quarter_refuted`: A quarter of a turn is not exact, whatever the functions of the library: the image of (1, 0) is not on the axis.
* `C172_self_refuted`: The accuracy of directions in double precision
* `C173_order_refuted`: The accuracy of intersections in double precision
* `C173_short_refuted`: Lines which are perpendicular have no intersection when their vectors are short: (2^-13, 0) and (0, 2^-13).
* `C174_on_refuted`: The distance is not null at a point of the segment given by its parameter: the point at the parameter 1/10 of the segment from (0, 0) to (3, 7).
* `C176_closed_refuted`: A path of relative moves whose sum is null does not come back: 0.1, 0.2, -0.1 and -0.2.
* `C177_associative_refuted`: The product does not act exactly as its factors one after the other: two reductions by ten of the point (5, 5).

## Simplifications, area by area

What the models leave out or assume, besides the conventions above.

* **Iterators, graphs, counters, singletons**: `unique_pairs` etc. are functions to lists; the
  `ObjectCkeckedIdMixin` is not modelled.
* **Vectors**: the orientation of the null vector is 90 as in the code; homogeneous vectors only where
  transformations need them.
* **Transformations**: the type tag follows the code, `_check_type` included.
* **Bezier, splines**: the methods which raise by mistake (`BSpline2D.clone`, `non_parametric_curve`)
  are modelled as raising or left out; numerical lengths with adaptative subdivision are left out.
* **Primitives**: `reverse()` of primitives whose MRO hides it is a no-op as in python; `np.array(iterator)`
  makes a scalar of objects.
* **Polygons, hull**: predefined properties of the hull polygon are not modelled.
* **Paths**: the caches of bulges are a state; the state after an exception is discarded; stringed curves keep
  their flag only; `bounding_box` of paths is not modelled.
* **Sketch**: a SinglePoint with a None coordinate gives nan in python (`Raise NotANumber`); a constructor which
  fails leaves its node in the graph and uses an id; changing the objects without the methods of Sketch is not
  modelled; a contact whose centre is not a point raises elsewhere.
* **Formulas**: parsing by `ast` is not modelled, formulas are trees or token lists; builtins reached by
  `eval` are not modelled.
* **Scopes**: names which are integers and sketches of scopes are not modelled.
* **Measurements**: names are Latin-1; sympy expressions are abstract with their evaluation as a parameter.
* **XML**: lxml serialisation is not modelled, an element is its tag, attributes and children; the
  inherited `__attributes__` of plain mixin classes are taken as own.
* **SVG paths**: letters among the arguments of `to_geometry` are not modelled; `lower` is ASCII only.
* **SVG transforms**: numbers are reals with a parser as a parameter.
* **SVG render state**: the texts inf and nan are not modelled, nor a transform inside a style.
* **SVG files**: attributes which several mixins give are listed once; attributes of the classes which the
  dispatcher never reads are not modelled; object addresses are left out of `repr`; the namespace which lxml gives to
  the elements read from a file (`stored`) and the constructor of Interval2D are assumed; a missing coordinate of a
  rectangle is NotANumber; only the base reader SvgFileInternal is modelled.
* **Colours**: hue keywords, the default integer 0 and the prefix `0x` are not modelled.
* **Styles**: enumerations called on bool or float values, and the truth of arbitrary objects, are not modelled.
* **TeX**: buffers contain texts and buffers; format specifications are not modelled; deepcopy copies the whole heap; the
  recursion limit is a parameter.
* **Scene**: the import errors above are repaired; rtree and IntervalArithmetic are assumed to find the boxes which meet;
  the order in which rtree gives them is a parameter; painters are assumed not to raise (C94); coordinates whose
  position is a name are not modelled.
* **DXF**: reading the file by ezdxf is not modelled, only polylines and ellipses are converted; a leg of length zero with a
  bulge is NotANumber; of the negative indices only -1 is modelled.
* **Valentina**: details, modeling and measurements are not modelled; a missing name is the text None; the text of an
  operation is not modelled; parsing expressions is a parameter.
* **Viewport**: the centre and size of Interval2D are assumed; QPointF are vectors; the identity test of scenes
  is not modelled; inf and nan are NotANumber; log10 is over the reals.
* **Painters**: figures stand for the calls of the libraries; `drawArc` of Qt is assumed (normalised rectangle, sixteenths of
  a degree, anticlockwise on the screen); caches of quadratic items are not modelled; the SVG texts of curves are assumed
  readable; the orientation of image pixels is not modelled; `line_style is StrokeStyle.NoPen` is never true.
* **Drawing primitives**: the syntax error of Scene.py 403 is repaired; the style and the user data of the items are left out;
  a polygon counts by its points; the geometry cached by an item and its boxes are not modelled here (see the scene).
  The outline of a path (C121) is defined without the caches and without the model of the arcs: a rounded corner is the
  part of the circle tangent to both sides which is on the side of the corner.
* **Drawing of a sketch**: label offsets, line styles and colours are a table beside the sketch, as they can be changed at any
  time; Vector2D has `__len__` and no `__bool__` so that a label is always drawn; the font is not modelled.
* **Python code of operations**: numbers are their texts, styles and colours are opaque objects; the characters are ASCII;
  Python is a grammar of calls with keywords whose values are None, numbers, plain strings and vectors.
* **Arrow heads**: the attribute set after `return ValueError` is missing, as in the code (AttributeError); the clone, not
  implemented, is left out; the polygon keeps its points only (its caches are in the polygons).
* **DXF import**: the model space is the list of its entities with the fields that the importer reads (ezdxf is trusted to give
  them); the points of an entity are defined by the DXF reference (bulge, ratio, knots) and not by the model.
* **Pattern files**: an XML file is a tree (tag, attributes, text, children, comments); the text of the tree is lxml's; `stored` says what
  a written tree becomes once parsed (an empty text is no text). The file system and the measurement files are
  parameters. The logger and the prints have effects only through the exceptions of what they print.
* **Dates and personal data**: the texts are Latin-1; the regular expressions of Python's `_strptime` are modelled with their alternatives and
  their backtracking; given values are None, texts, integers, dates, times and genders (no bool, no float).
* **Measurement files**: the import of the missing name `Measurements` is repaired; sympy is a parameter; the XML file is a tree, as for
  the pattern files; an object registered under two names is an index in the list of the objects.
* **Triangles, boxes, rounding**: the box of the interval library is its two intervals, its size the lengths of these; the caches of a triangle
  are modelled twice, as written (reading an attribute which does not exist) and repaired; the negative zero is left out.

**YAML files** (`ModelYaml`, `ModelYamlData`, `SpecYaml`, `ProofYaml`, `ProofYaml2`, `PropYaml`; C139-C143).
Modelled: the saving and the loading of measurements, the table of standard measurements, the databases of fibres and of stitches, the
constructors of fabrics, seams and sewing machines, all from the YAML value on; the text of a YAML file is left to the library. `open` is
modelled by the choice of the codec among a list of names which Python knows, and by the emptying of the file which precedes it.
`ModelYamlData` is a transcription, by a script, of valentina-standard-measurements.yaml and fiber.yaml.
Disagreements: the codec 'uft8' does not exist, so that save_as_yaml empties the file and raises, and load_yaml raises; a measurement given
as a number is saved as a text, whose value is then computed with three digits; fiber.yaml writes Fibres and stitch.yaml writes Introduction
and Classes, which the loaders do not find; the loader of stitches adds nothing; the source of a synthetic fibre is dropped; a fabric can
never be made (FloatPair is given one argument); the name of a seam raises KeyError; the arguments sitche_types, sitch_length and
sitch_width of a machine are misspelled and the numbers cannot be left out.

**Boxes of paths** (`ModelPathBox`, `SpecPathBox`, `ProofPathBox`, `ProofPathBox2`, `ProofPathBox3`, `PropPathBox`; C144).
Modelled: the bounding boxes of the parts and of the path, over the model of paths (C60 and following), so that the boxes are proved for
every history of drawing and reading. Disagreements: the box of a curve is that of its control points; the arcs of the corners are left
out; the box of the arc of a turned ellipse is too small; a stringed curve has no geometry.

**Homogeneous and normalised vectors, copies of transformations** (`ModelHomogeneous`, `SpecHomogeneous`, `PropHomogeneous`; C145-C147).
Modelled: the classes of vectors with their coordinates and weight, the operators by class, the constructor of transformations by the
kind of its argument. Disagreements: the weight is lost by each operation; the constructors compare the size of a matrix with the
dimension of the plane, so that no affine transformation can be copied and a plane one takes a matrix of size three; a plane
transformation without type raises, since _check_matrix_type does not exist.

**Files, platform, messages** (`ModelFiles`, `SpecFiles`, `ProofFiles`, `ProofFiles2`, `PropFiles`, `ModelPlatform`, `SpecPlatform`, `ProofPlatform`,
`PropPlatform`; C148-C151). Modelled: Common/Path.py with the functions of posixpath and os.walk which it calls, over a tree of files without
links; Platform.py from the lines of /proc on; ConfigInstall.py and Logging.py from the YAML value on. Disagreements: one directory given as a
str is searched character by character; two slashes at the start of a path are kept; a path through a directory which does not exist becomes
one which may exist; every line with the word processor is counted; without the line of the frequency, and on every system but Linux, the
platform cannot be described; on macOS the escapes are not replaced and on other systems the messages cannot be set up; a level which is not
the name of an integer of the module is a TypeError.

**Sketches of the geometry engine** (`ModelPlan`, `PropPlan`; C152). Modelled: the evaluation of the annotations when the module is defined, how
a python call binds positional and keyword arguments, and the constructors of Sketch.py. Not modelled: the methods of SketchLine, whose objects
cannot be made. Disagreements: the module raises NameError at import before python 3.14 (an annotation names its own class); no point, middle,
line or segment of a sketch can be made.

**Qt bindings** (`ModelShimData`, `ModelShim`, `ProofShim`, `PropShim`; C153). Modelled: QtShim/__init__.py and the tables of QtConfig.py, copied
as they are; python objects are abstract values with attributes and a truth value. Not modelled: QtCompat, which nothing fills, the messages,
the empty lists of extra modules, the command line of the package. Disagreements: a member to move which is false is replaced by its module;
qApp is stored under the name QApplication and has no name of its own; versions which cannot be read are an error although the other binding
could be used.

**Release** (`ModelRelease`, `SpecRelease`, `ProofRelease`, `PropRelease`; C154, C155). Modelled: merge_include of setup_data.py over any finite set
of files (the recursion uses fuel, which is shown to be enough), and update_git_sha of tasks/release.py from the answers of git on. Not
modelled: the limit of python on recursion, read_readme's search of the directory, the other tasks, which only run commands. Disagreements:
two names of a file are two files; an indented include is text; the last line of a file without a newline runs into the next one; every text
with a digit at its start is a version; lines which are not there are not added.

**Application** (`ModelApp`, `PropApp`; C156). Modelled: Application.create, the scene property, _message_handler, execute_user_script and
PathAction. Not modelled: Qt, the event loop, the texts of tracebacks. Disagreements: a message of an unknown type is an UnboundLocalError; a
script which cannot be read or decoded is reported to nobody.

**Recentering, perpendiculars, reflections** (`PropRecenter`, `PropLine2`; C157, C158, C159). On the models of polygons, lines and
transformations. The barycenter of a polygon of null area is the first point object itself, and `-=` works in place: this sharing is
modelled. Disagreements: recenter leaves the stored barycenter and edges as they were; it fails on a polygon of which nothing was asked;
with a null area only the first point moves; a line with a short direction is parallel to its own perpendicular.

**Drawings on a grid** (`ProofGrid`, `PropGrid`; C164). A number is `exactly` a real when it has this value and is an integer of at most m times 2^e; sums, products and
fused operations of such numbers are exact as long as the integers stay below 2^53 (`exact_add`, `exact_mul`, ...). The theorems follow a formula through these lemmas, and compare
the result with the Bernstein form of the curve, written in the specification. Proved for every step between 2^-400 and 2^400 (a smaller range for products); off the grid the
claim is false (`C164_off_grid`: a curve with decimal coordinates split at 0.3). The power t**3 is taken to be exact when it is a double.

**Decisions in double precision** (`ModelDecide`, `PropDecide`; C165). Sides, orientations, crossings of segments and the points of a triangle, computed with doubles. On a grid
of at most 2^23 steps from the origin every decision is that of exact arithmetic (for `triangle_orientation` and `intersect_with`: that of the model with real numbers, so that
the theorems about it apply). In general the ends are on the line unless a product overflows, and no side is ever inverted when the differences of the coordinates are exact; a
point near the line can be said to be on it (`C165_collinear_refuted`).

**Accuracy of double precision** (`ProofAccuracy`, `PropAccuracy`; C166). Bounds of the errors of lengths, cross products and points of segments, for coordinates which are null or
between 2^-500 and 2^500; each rounded operation is the exact one times 1 + d with |d| at most 2^-53 (Flocq). Smaller vectors can have a null length (`C166_length_refuted`).

**Polygons in double precision** (`ModelDoublePolygon`, `PropDoublePolygon`; C167). The mean of the points, summed in the order of the polygon and divided once, and the sum of the cross
products of the area, for which `np_sum` allows any order and grouping and added zeros. On a grid both are what exact arithmetic gives (the mean rounded once); with decimal
numbers the mean of three equal points is another point, outside of their box, and the order of the sum changes the area. The test of simplicity before the area and the
barycenter by area are not in this model (they are in `ModelPolygon`, with real numbers).

**Sheets in double precision** (`ModelDoublePaper`, `ProofDoublePaper`, `PropDoublePaper`; C168). PaperSize and the lengths of the PDF painter with
double precision numbers. `SQRT_2**level` calls pow of the C library, which is not modelled: it is any function whose value is within one unit in the last
place (2^-52) of the power. Compared with the sheets over the real numbers (`ModelUnits`, C51). Disagreements: the width of A2 and the height of A3 differ
by a rounding with a correct pow; seven inches are 503.99999999999994 points.

**The accuracy of curves** (`ModelDoubleCurve`, `ProofCurveAccuracy`, `PropCurveAccuracy`; C169). point_at_t and split_at_t of the curves at any parameter
between 0 and 1, with any function pow right to four units of rounding (the products of `ModelDouble` are such a function). The errors are bounded
relative to a size of the drawing between 2^-900 and 2^900, underflow included. Disagreement: a curve may leave the box of its control points by a
rounding, even when these are one point.

**Areas and perimeters in double precision** (`ModelDoubleArea`, `ProofArea`, `PropArea`; C170). The area of a triangle, the signed area of a polygon and
its sign, the perimeter. np.sum adds in any order; the sum of python is any summation right to one unit of rounding for each term, because python sums from
left to right until 3.11 (proved to be such a summation) and with compensation since 3.12 (assumed). The test of simplicity before the area is not in
this model. The bound on perimeters needs edges whose coordinates are null or neither tiny nor huge. Disagreement: a thin triangle
is given the other sense.

**Rotations in double precision** (`ModelDoubleRotation`, `ProofRotation`, `PropRotation`; C171). rotate, the matrix of Rotation, from_angle,
from_polar and from_ellipse with the numbers of the machine. The functions cos and sin of the C library are parameters, assumed right to two units
of rounding between -8 and 8; the example shows that the rounded cosine and sine are such functions. math.radians is modelled as CPython computes
it, a product by the quotient of the double of pi by 180; the digits of pi which are needed are proved from the series of the standard library.
The claim that a quarter of a turn is exact is refuted for every such cos: the double of pi/2 is below pi/2, so the image of (1, 0) is not on the
axis. Angles of more than one turn are outside the theorems, but for radians.

**Directions in double precision** (`ModelDoubleDirection`, `ProofDirection`, `PropDirection`; C172). cos_with, sin_with, projection_on, deviation_with,
angle_with, to_normalised and distance_to_line with the numbers of the machine. The dot product of numpy may round once or twice, the function acos
of the C library is a parameter, assumed right to 4/2^53; the example shows that the rounded arc cosine is such a function. The bound of angles,
6/10^6 degrees, is of the order of the square root of the precision, since acos has a vertical tangent at one. The claim that the angle of a vector with
itself is null is refuted for every such acos: cos_with of (1, 1) with itself is 1 - 2/2^53. The distance to a line is stated for
exact differences of points. Division by the length of a null vector is outside this model (see the models with real numbers).

**Intersections in double precision** (`ModelDoubleIntersection`, `ProofIntersection`, `PropIntersection`, `ProofIntersectionAny`, `PropIntersectionAny`; C173). intersection_abscissae,
Line2D.intersection and Segment2D.intersection with the numbers of the machine. The accuracy depends on k, which measures how far the lines are from
parallel: s^2 <= k |C| for the cross product C of the vectors and the size s. C173_cross and
C173_apart are about segments whose differences of coordinates are numbers of the machine, as on a grid; C173_any_cross and C173_any_apart are about any
segments, with larger constants, the vectors of the lines being rounded. round(x, 7) of python is modelled by its comparison with 5/10^8. Two claims are refuted: the intersection depends on the order of the
lines (through (0, 0) along (2, 1) and through (1, 0) along (1, 3)), and perpendicular lines have none when their vectors are short (2^-13).

**The distance of a point to a segment in double precision** (`ModelDoubleDistance`, `PropDistance`; C174). distance_and_abscissa_to_line and
Segment2D.distance_to_point with the numbers of the machine. The specification is the least of the distances to the places of the segment, which
exists (C174_least). The bound holds whichever of the three cases the rounded abscissa selects, because the distances of both cases agree near the
border. The differences of the coordinates are assumed to be numbers of the machine, as on a grid. The claim that the distance is null for a point
given by interpolate is refuted (the parameter 1/10 of the segment from (0, 0) to (3, 7)).

**Repeated rotations in double precision** (`PropTurns`; C175). The model of rotate applied along a list of angles. The exact rotation keeps the length
of the error made so far, and each rotation adds at most 50 units of rounding of the length, so that the error grows linearly.

**Paths of relative moves in double precision** (`ModelDoublePath`, `PropDrift`, `PropDriftGrid`; C176). The stop points of the segments of a path: relative, absolute,
absolute horizontal and vertical, and directional. Each kind has a cost in units of rounding of the size, and the error of the last point is at most
the sum of the costs. Bulges and curves are left out. The claim that a path whose moves add up to zero comes back is refuted (0.1, 0.2, -0.1, -0.2).

**Products of transformations in double precision** (`ModelDoubleCompose`, `PropCompose`, `PropComposeGrid`; C177). np.matmul of two affine matrices and of a matrix by a
point, with the products added from left to right. The bounds are about transformations which do not enlarge; C177_grid is about whole coefficients
of at most 1024 on a grid, where nothing is lost. The claim that the product acts exactly as its factors is refuted (two reductions by ten of (5, 5)).

**Double precision** (`ModelDouble`, `ProofDouble`, `PropDouble`; C160 to C163). The other models of the geometry engine compute with real
numbers; here the arithmetic of vectors, the middle, interpolation, point_at_t of the curves and the product of a matrix and a point are
modelled with the IEEE 754 double precision numbers of Flocq, rounded to nearest even, with infinities, NaN and signed zeros. Assumed: numpy
and python use this arithmetic without extended precision; np.dot may or may not fuse the product and the sum (both are modelled for the
magnitude; for the matrix product the theorems are about the sum in the order of the columns). The powers of t are products, used for 0 and 1
only. Not modelled in double precision: trigonometric functions, round(x, 7), the rest of the engine. Disagreements: a cubic curve and a
line through two points may miss their last point by a rounding; a segment with equal ends moves; the way back of a translation or of
the screen is not exact; sums overflow although the middle is a point.

## What is modelled and what is not, file by file

A function counts as modelled when a definition of the model cites lines of it or names it.  Accessors which only return an attribute, texts for
debugging (`__str__`, `__repr__`) and constructors which only store their arguments are often represented by the data types of the model and counted as
not cited.  Functions whose body is only `pass` or `raise` are left out.

* `Patro/Common/ArgparseAction.py`: 1 of 1 functions, in `ModelApp.v`.
* `Patro/Common/AtomicCounter.py`: 3 of 4 functions, in `ModelCounter.v`.  Not cited: `AtomicCounter.__int__`.
* `Patro/Common/Datetime.py`: 2 of 2 functions, in `ModelDate.v`.
* `Patro/Common/Graph/DirectedAcyclicGraph.py`: 15 of 19 functions, in `ModelGraph.v`.  Not cited: `DirectedAcyclicGraphNode.__repr__`, `DirectedAcyclicGraphNode.node_id`, `DirectedAcyclicGraphNode.descendants`, `DirectedAcyclicGraph.__iter__`.
* `Patro/Common/IterTools.py`: 5 of 5 functions, in `ModelIter.v`.
* `Patro/Common/Logging/Logging.py`: 1 of 1 functions, in `ModelPlatform.v`.
* `Patro/Common/Math/Functions.py`: 8 of 8 functions, in `ModelDoubleArea.v`, `ModelDoubleDirection.v`, `ModelTriangle.v`, `ModelVector.v`.
* `Patro/Common/Math/Root.py`: 11 of 12 functions, in `ModelBezier.v`, `ModelRoot.v`.  Not cited: `x_symbol`.
* `Patro/Common/Object.py`: 8 of 14 functions, in `ModelCounter.v`, `ModelScope.v`, `ModelValentina.v`.  Not cited: `ObjectNameMixin.__str__`, `ObjectGlobalIdMixin.__repr__`, `ObjectCkeckedIdMixin.__init__`, `ObjectCkeckedIdMixin.__repr__`, `ObjectCkeckedIdMixin.__int__`, `ObjectCkeckedIdMixin.check_id`.
* `Patro/Common/Path.py`: 3 of 3 functions, in `ModelFiles.v`.
* `Patro/Common/Platform.py`: 6 of 13 functions, in `ModelPlatform.v`.  Not cited: `Platform.__str__`, `QtPlatform.__init__`, `QtPlatform.number_of_screens`, `QtPlatform.query_opengl`, `QtPlatform.__str__`, `Screen.__init__`, `Screen.__str__`.
* `Patro/Common/Singleton.py`: 4 of 6 functions, in `ModelSingleton.v`.  Not cited: `singleton.__init__`, `monostate.__new__`.
* `Patro/Common/Xml/Objectivity.py`: 26 of 30 functions, in `ModelSvgFile.v`, `ModelValFile.v`, `ModelValentina.v`, `ModelXml.v`.  Not cited: `Attribute.py_attribute`, `Attribute.py_cls_attribute`, `Attribute.xml_attribute`, `Attribute.__repr__`.
* `Patro/Common/Xml/XmlFile.py`: 5 of 6 functions, in `ModelSvgFile.v`, `ModelValFile.v`.  Not cited: `XmlFileMixin.__init__`.
* `Patro/Config/ConfigInstall.py`: 6 of 6 functions, in `ModelPlatform.v`.
* `Patro/FileFormat/Dxf/Importer.py`: 10 of 13 functions, in `ModelDxf.v`, `ModelImport.v`.  Not cited: `DxfImporter.__len__`, `DxfImporter.__iter__`, `DxfImporter.__getitem__`.
* `Patro/FileFormat/Dxf/Polyline.py`: 20 of 24 functions, in `ModelDxf.v`, `ModelLine.v`, `ModelPath.v`, `ModelPrimitive.v`.  Not cited: `PolylineVertex.__str__`, `Polyline.__len__`, `Polyline.__iter__`, `Polyline.__str__`.
* `Patro/FileFormat/Svg/SvgFile.py`: 29 of 30 functions, in `ModelSvgFile.v`, `ModelSvgState.v`.  Not cited: `SvgFile.__init__`.
* `Patro/FileFormat/Svg/SvgFormat.py`: 18 of 18 functions, in `ModelSvgFile.v`, `ModelSvgPath.v`, `ModelSvgState.v`, `ModelSvgTransform.v`.
* `Patro/FileFormat/Valentina/Measurement.py`: 5 of 5 functions, in `ModelMeasure.v`, `ModelVit.v`.
* `Patro/FileFormat/Valentina/Pattern.py`: 19 of 23 functions, in `ModelScope.v`, `ModelValFile.v`, `ModelValentina.v`.  Not cited: `ValFileReaderInternal.__init__`, `ValFileReader.__init__`, `ValFileReader.vit_file`, `ValFileWriter.__init__`.
* `Patro/FileFormat/Valentina/VitFormat.py`: 13 of 13 functions, in `ModelValFile.v`, `ModelValentina.v`.
* `Patro/GeometryEngine/Bezier.py`: 41 of 44 functions, in `ModelBezier.v`, `ModelDouble.v`, `ModelDoubleCurve.v`, `ModelSpline.v`.  Not cited: `QuadraticBezier2D.__repr__`, `CubicBezier2D.__init__`, `CubicBezier2D.__repr__`.
* `Patro/GeometryEngine/BoundingBox.py`: 1 of 1 functions, in `ModelLine.v`.
* `Patro/GeometryEngine/Conic.py`: 52 of 52 functions, in `ModelConic.v`, `ModelPathBox.v`.
* `Patro/GeometryEngine/Interpolation.py`: 1 of 1 functions, in `ModelDouble.v`, `ModelVector.v`.
* `Patro/GeometryEngine/Line.py`: 22 of 26 functions, in `ModelDouble.v`, `ModelDoubleDirection.v`, `ModelDoubleDistance.v`, `ModelDoubleIntersection.v`, `ModelLine.v`, `ModelTriangle.v`.  Not cited: `Line2D.clone`, `Line2D.__str__`, `Line2D.is_infinite`, `Line2D.vn`.
* `Patro/GeometryEngine/Mixin.py`: 24 of 26 functions, in `ModelConic.v`.  Not cited: `CenterMixin.center`.
* `Patro/GeometryEngine/Path.py`: 111 of 126 functions, in `ModelDoublePath.v`, `ModelDrawing.v`, `ModelPath.v`, `ModelPathBox.v`.  Not cited: `PathPart.__init__`, `PathPart._init_absolute`, `PathPart.__repr__`, `TwoPointMixin.point1`, `TwoPointMixin.point2`, `ThreePointMixin.point3`, `Path2D.is_composed`, `Path2D.__len__`, `Path2D.__iter__`, `Path2D.start_segment`, `Path2D.stop_segment`, `Path2D.is_closed`.
* `Patro/GeometryEngine/Polygon.py`: 37 of 45 functions, in `ModelDecide.v`, `ModelDoubleArea.v`, `ModelDoublePolygon.v`, `ModelDrawing.v`, `ModelPolygon.v`, `ModelPrimitive.v`.  Not cited: `Polygon2D.is_triangle`, `Polygon2D.to_triangle`, `Polygon2D.number_of_edges`, `Polygon2D.is_concave`, `Polygon2D.is_counterclockwise`, `RegularPolygon.number_of_edges`, `RegularPolygon.edge_angle`, `RegularPolygon.circumcircle`.
* `Patro/GeometryEngine/Polyline.py`: 5 of 5 functions, in `ModelDrawing.v`, `ModelDxf.v`, `ModelLine.v`, `ModelPath.v`, `ModelPrimitive.v`.
* `Patro/GeometryEngine/Primitive.py`: 67 of 77 functions, in `ModelArrow.v`, `ModelBezier.v`, `ModelDetail.v`, `ModelDoubleIntersection.v`, `ModelDoublePolygon.v`, `ModelLine.v`, `ModelPath.v`, `ModelPathBox.v`, `ModelPolygon.v`, `ModelPrimitive.v`, `ModelScene.v`, `ModelSpline.v`.  Not cited: `Primitive.is_composed`, `Primitive.is_infinite`, `Primitive.is_closed`, `PointPrimitive.__repr__`, `PointPrimitive.__eq__`, `PointPrimitive.is_point_close`, `Primitive2P.end_point`, `Primitive4P.iter_from_second_point`, `PrimitiveNP.end_point`, `PrimitiveNP.__getitem__`.
* `Patro/GeometryEngine/Rectangle.py`: 7 of 11 functions, in `ModelLine.v`.  Not cited: `Rectangle2D.__init__`, `Rectangle2D.from_point_and_offset`, `Rectangle2D.from_point_and_radius`, `Rectangle2D.is_closed`.
* `Patro/GeometryEngine/Segment.py`: 14 of 16 functions, in `ModelDecide.v`, `ModelDouble.v`, `ModelDoubleArea.v`, `ModelDoubleDistance.v`, `ModelDoubleIntersection.v`, `ModelLine.v`, `ModelPolygon.v`.  Not cited: `Segment2D.__init__`, `Segment2D.cross_product`.
* `Patro/GeometryEngine/Shape/ArrowHead.py`: 22 of 26 functions, in `ModelArrow.v`.  Not cited: `ArrowHead.anchor_point`, `TriangularHeadMixin.width`, `TriangularHeadMixin.axial_offset`, `TriangularCurvyHead.curve_depth`.
* `Patro/GeometryEngine/Sketch.py`: 22 of 22 functions, in `ModelDetail.v`, `ModelPlan.v`, `ModelSketch.v`.
* `Patro/GeometryEngine/Spline.py`: 22 of 29 functions, in `ModelPrimitive.v`, `ModelSpline.v`.  Not cited: `QuadraticUniformSpline2D.__init__`, `QuadraticUniformSpline2D.__repr__`, `CubicUniformSpline2D.__init__`, `CubicUniformSpline2D.__repr__`, `BSpline2D.check_for_unifom_knots`, `BSpline2D.is_closed`, `BSpline2D.knot_iter`.
* `Patro/GeometryEngine/Transformation.py`: 29 of 30 functions, in `ModelDouble.v`, `ModelDoubleCompose.v`, `ModelDoubleRotation.v`, `ModelHomogeneous.v`, `ModelPainter.v`, `ModelPrimitive.v`, `ModelSvgTransform.v`, `ModelTransformation.v`.  Not cited: `AffineTransformation.translation_part`.
* `Patro/GeometryEngine/Triangle.py`: 22 of 23 functions, in `ModelDecide.v`, `ModelDoubleArea.v`, `ModelLine.v`, `ModelPrimitive.v`, `ModelTriangle.v`.  Not cited: `Triangle2D.is_closed`.
* `Patro/GeometryEngine/Vector.py`: 67 of 70 functions, in `ModelArrow.v`, `ModelDetail.v`, `ModelDouble.v`, `ModelDoubleDirection.v`, `ModelDoubleIntersection.v`, `ModelDoubleRotation.v`, `ModelHomogeneous.v`, `ModelLine.v`, `ModelPlan.v`, `ModelPrimitive.v`, `ModelTriangle.v`, `ModelVector.v`.  Not cited: `Vector2DBase.__repr__`, `Vector2DBase.__iter__`, `Vector2DBase.__getitem__`.
* `Patro/GraphicEngine/GraphicScene/GraphicItem.py`: 40 of 40 functions, in `ModelDrawing.v`, `ModelPainter.v`, `ModelScene.v`.
* `Patro/GraphicEngine/GraphicScene/GraphicItemMixin.py`: 34 of 40 functions, in `ModelPainter.v`, `ModelScene.v`.  Not cited: `GraphicItem.__init_subclass__`, `GraphicItem.user_data`, `GraphicItem.__hash__`, `StartStopAngleMixin.__init__`, `StartStopAngleMixin.start_angle`, `StartStopAngleMixin.stop_angle`.
* `Patro/GraphicEngine/GraphicScene/GraphicStyle.py`: 27 of 29 functions, in `ModelStyle.v`.  Not cited: `GraphicPathStyle.__repr__`, `Font.__init__`.
* `Patro/GraphicEngine/GraphicScene/Scene.py`: syntax error; modelled in `ModelDrawing.v`, `ModelScene.v`, `ModelViewport.v`.
* `Patro/GraphicEngine/GraphicScene/TypographyUnit.py`: 9 of 11 functions, in `ModelUnits.v`.  Not cited: `TypographyUnit.__init__`, `TypographyUnit.__float__`.
* `Patro/GraphicEngine/Painter/DxfPainter.py`: 7 of 8 functions, in `ModelPainter.v`, `ModelScene.v`.  Not cited: `DxfPainterBase.__init__`.
* `Patro/GraphicEngine/Painter/MplPainter.py`: 4 of 7 functions, in `ModelScene.v`.  Not cited: `MplPainter.__init__`, `MplPainter.show`, `MplPainter._add_path`.
* `Patro/GraphicEngine/Painter/Painter.py`: 6 of 9 functions, in `ModelPainter.v`, `ModelScene.v`.  Not cited: `Painter.__init_subclass__`, `Painter.__init__`, `Painter.cast_item_coordinates`.
* `Patro/GraphicEngine/Painter/Paper.py`: 5 of 8 functions, in `ModelDoublePaper.v`, `ModelUnits.v`.  Not cited: `PaperSize.name`, `PaperSize.height`, `PaperSize.width`.
* `Patro/GraphicEngine/Painter/PdfPainter.py`: 8 of 11 functions, in `ModelDoublePaper.v`, `ModelScene.v`.  Not cited: `PdfPainterBase.__init__`, `ReportlabPainter.__init__`, `ReportlabPainter._set_graphic_style`.
* `Patro/GraphicEngine/Painter/QtPainter.py`: 59 of 61 functions, in `ModelScene.v`, `ModelViewport.v`.  Not cited: `QtScene.__init__`, `QtPainter.__init__`.
* `Patro/GraphicEngine/Painter/SvgPainter.py`: 5 of 8 functions, in `ModelScene.v`.  Not cited: `SvgPainter.__init__`, `SvgPainter._append`, `SvgPainter._graphic_style`.
* `Patro/GraphicEngine/Painter/TexPainter.py`: 9 of 15 functions, in `ModelScene.v`.  Not cited: `TexPainter.__init__`, `TexPainter.paper_name`, `TexPainter.margin`, `TexPainter._preambule`, `TexPainter.add_detail_figure`, `TexPainter.add_tiled_detail_figure`.
* `Patro/GraphicEngine/TeX/Buffer.py`: 5 of 5 functions, in `ModelTex.v`.
* `Patro/GraphicEngine/TeX/Document.py`: 9 of 10 functions, in `ModelTex.v`.  Not cited: `Document.write`.
* `Patro/GraphicEngine/TeX/Environment.py`: 3 of 3 functions, in `ModelTex.v`.
* `Patro/GraphicEngine/TeX/Tikz.py`: 1 of 2 functions, in `ModelStyle.v`.  Not cited: `TikzFigure.__init__`.
* `Patro/GraphicStyle/Color/__init__.py`: 1 of 1 functions, in `ModelColor.v`, `ModelColorData.v`, `ModelShim.v`, `ModelSketch.v`, `ModelStyle.v`, `ModelValentina.v`.
* `Patro/Measurement/Measurement.py`: 25 of 25 functions, in `ModelMeasure.v`, `ModelVit.v`, `ModelYaml.v`.
* `Patro/Measurement/PersonalData.py`: 9 of 15 functions, in `ModelDate.v`.  Not cited: `PersonalData.first_name`, `PersonalData.last_name`, `PersonalData.birth_date`, `PersonalData.measurement_date`, `PersonalData.email`, `PersonalData.comment`.
* `Patro/Measurement/StandardMeasurement.py`: 15 of 16 functions, in `ModelMeasure.v`, `ModelYaml.v`.  Not cited: `Measurement.description`.
* `Patro/Measurement/ValentinaMeasurement.py`: 3 of 5 functions, in `ModelVit.v`.  Not cited: `ValentinaMeasurement.__init__`, `ValentinaMeasurement.valentina_name`.
* `Patro/Measurement/ValentinaStandardMeasurement.py`: 4 of 4 functions, in `ModelYaml.v`.
* `Patro/Pattern/Calculator.py`: 26 of 33 functions, in `ModelFormula.v`, `ModelPython.v`, `ModelSketch.v`, `ModelValFile.v`.  Not cited: `NodeVisitor.__init__`, `NodeVisitor.dependencies`, `Calculator.set_current_segment`, `Calculator.unset_current_segment`, `Calculator.add_point`, `Calculator._names_to_vector_points`, `Expression.__str__`.
* `Patro/Pattern/Pattern.py`: 12 of 12 functions, in `ModelScope.v`, `ModelValFile.v`, `ModelValentina.v`.
* `Patro/Pattern/Sketch.py`: 14 of 14 functions, in `ModelDetail.v`, `ModelPlan.v`, `ModelSketch.v`.
* `Patro/Pattern/SketchOperation.py`: 56 of 78 functions, in `ModelDetail.v`, `ModelPython.v`, `ModelSketch.v`, `ModelValFile.v`, `ModelValentina.v`.  Not cited: `SketchOperation._dag`, `SketchOperation.dependencies`, `LinePropertiesMixin.__init__`, `LinePropertiesMixin.line_color`, `LinePropertiesMixin.line_style`, `BasePointMixin.base_point`, `LengthMixin.__init__`, `AngleMixin.__init__`, `AngleMixin.angle`, `LengthAngleMixin.__init__`, `RadiusMixin.__init__`, `RadiusMixin.radius`, `CenterRadiusMixin.__init__`, `Point._post_eval_internal`, `SimpleInteractiveSpline.angle1`, `SimpleInteractiveSpline.length1`, `SimpleInteractiveSpline.angle2`, `SimpleInteractiveSpline.length2`, `SimpleInteractiveSpline.control_point1`, `SimpleInteractiveSpline.control_point2`.
* `Patro/Pattern/SketchStyle.py`: 15 of 15 functions, in `ModelDetail.v`.
* `Patro/Pattern/__init__.py`: 1 of 1 functions, in `ModelColorData.v`.
* `Patro/TextileTechnology/Database.py`: 6 of 6 functions, in `ModelYaml.v`.
* `Patro/TextileTechnology/Fabric.py`: 2 of 3 functions, in `ModelYaml.v`.  Not cited: `WovenFabric.__init__`.
* `Patro/TextileTechnology/Fiber.py`: 6 of 6 functions, in `ModelYaml.v`.
* `Patro/TextileTechnology/Seam.py`: 2 of 4 functions, in `ModelYaml.v`.  Not cited: `AstmSeamClass.__init__`, `AstmSeam.__init__`.
* `Patro/TextileTechnology/SewingMachine.py`: 4 of 12 functions, in `ModelYaml.v`.  Not cited: `SewingMachine.description`, `NeedleType.__init__`, `NeedleType.description`, `NeedleType.fabric_use`, `Needle.__init__`, `Needle.system`, `Needle.size`, `Needle.multiplicity`.
* `Patro/TextileTechnology/StitchType.py`: 4 of 7 functions, in `ModelYaml.v`.  Not cited: `StitchType.number_of_needles`, `StitchType.number_of_threads`, `StitchType.number_of_loops`.
* `Patro/TextileTechnology/Yarn.py`: 9 of 11 functions, in `ModelUnits.v`.  Not cited: `Yarn.fiber`, `Yarn.color`.

Not modelled at all (number of functions): `Patro/GraphicStyle/Color/ColorDataBase.py` (30), `Patro/QtApplication/QmlApplication.py` (20), `Patro/TextileTechnology/Needle.py` (12), `Patro/TextileTechnology/StichSeam.py` (1).

## Trusted base

* The Coq 8.16.1 kernel, with `vm_compute` where used.
* The axioms which `Print Assumptions` lists under each theorem.  They all come from the standard library (constructive reals and their
  classical completion, functional extensionality, excluded middle); Flocq, Coquelicot and mathcomp add none of their own.
  The sets are:

  * **A0** (248 theorems): closed under the global context, no axiom
  * **A1** (21 theorems): `ClassicalDedekindReals.sig_forall_dec`
  * **A2** (175 theorems): `ClassicalDedekindReals.sig_forall_dec`, `FunctionalExtensionality.functional_extensionality_dep`
  * **A3** (190 theorems): `ClassicalDedekindReals.sig_forall_dec`, `ClassicalDedekindReals.sig_not_dec`, `FunctionalExtensionality.functional_extensionality_dep`
  * **A4** (313 theorems): `ClassicalDedekindReals.sig_forall_dec`, `ClassicalDedekindReals.sig_not_dec`, `Classical_Prop.classic`, `FunctionalExtensionality.functional_extensionality_dep`

* That the model matches the python text, as cited definition by definition, with the simplifications above.
* The libraries of Patro (numpy, sympy, lxml, rtree, IntervalArithmetic, ezdxf, reportlab, matplotlib, Qt) as described area by area.
* No axiom is added, no kernel check is switched off, and there is no `Admitted`, functor, module type or plugin in `rocq/theories`.

## Wrong programs

`seeded/LOG.jsonl` records one line for each wrong program tried: an edit of a definition of the model in a scratch copy, the claim it breaks,
the theorems which then fail to prove, and the theorems which were tightened because they still held.
