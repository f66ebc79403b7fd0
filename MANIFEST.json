{
 "claims": [
  {
   "property": "C01",
   "status": "proved",
   "theorems": [
    "C01_each_creation",
    "C01_ids_strictly_increasing"
   ],
   "note": "single thread; see C03 for threads"
  },
  {
   "property": "C02",
   "status": "proved",
   "theorems": [
    "C02_calls_take_effect_one_by_one",
    "C02_no_lost_increment"
   ],
   "note": "every schedule; increments and sets are also shown to take effect one by one in some order"
  },
  {
   "property": "C03",
   "status": "partial",
   "theorems": [
    "C03_distinct_returns_partial",
    "C03_distinct_returns_refuted"
   ],
   "note": "false of the code: two overlapping increments can return the same value (refuted with a schedule). Proved for calls that do not overlap."
  },
  {
   "property": "C04",
   "status": "proved",
   "theorems": [
    "C04_one_instance"
   ],
   "note": "constructor modelled as one step that may raise and does not instantiate the class itself"
  },
  {
   "property": "C05",
   "status": "partial",
   "theorems": [
    "C05_one_instance_partial",
    "C05_one_instance_refuted"
   ],
   "note": "false of the code: the decorator takes no lock (refuted with a schedule). Proved when calls do not overlap."
  },
  {
   "property": "C06",
   "status": "proved",
   "theorems": [
    "C06_closed_iterator",
    "C06_closed_iterator_empty",
    "C06_closed_multiwise_index",
    "C06_closed_pairwise",
    "C06_closed_pairwise_defined",
    "C06_multiwise",
    "C06_nuplets",
    "C06_pairwise",
    "C06_pairwise_defined",
    "C06_pairwise_empty"
   ],
   "note": "generators modelled by the list of yielded items"
  },
  {
   "property": "C07",
   "status": "proved",
   "theorems": [
    "C07_topological_order"
   ],
   "note": "all set iteration orders; python's recursion limit is not modelled"
  },
  {
   "property": "C08",
   "status": "proved",
   "theorems": [
    "C08_cycle_detected"
   ],
   "note": "all set iteration orders; python's recursion limit is not modelled"
  },
  {
   "property": "C09",
   "status": "proved",
   "theorems": [
    "C09_breadth_first"
   ],
   "note": ""
  },
  {
   "property": "C10",
   "status": "proved",
   "theorems": [
    "C10_disconnect_missing",
    "C10_history_refines_abstract_graph",
    "C10_leafs",
    "C10_mirrored",
    "C10_roots"
   ],
   "note": "nodes made by add_node; the broken property `ancestor` (missing attribute) is not modelled"
  },
  {
   "property": "C11",
   "status": "proved",
   "theorems": [
    "C11_cubic_closed_form",
    "C11_cubic_root_degenerate",
    "C11_cubic_root_normalised_refuted",
    "C11_quadratic_root",
    "C11_quadratic_root_degenerate",
    "C11_quadratic_root_order"
   ],
   "note": "over the reals; sympy's real_roots is a parameter; cubic_root_normalised refuted (operator precedence)"
  },
  {
   "property": "C12",
   "status": "proved",
   "theorems": [
    "C12_abs",
    "C12_anti_normal",
    "C12_from_polar",
    "C12_middle",
    "C12_normal",
    "C12_normalise",
    "C12_orientation_beyond",
    "C12_orientation_null_rejected_refuted",
    "C12_orientation_of_polar",
    "C12_orientation_polar",
    "C12_parity",
    "C12_permute",
    "C12_rotate_adds_angles",
    "C12_rotate_back",
    "C12_rotate_clockwise",
    "C12_rotate_counter_clockwise",
    "C12_rotate_keeps_cross",
    "C12_rotate_keeps_dot",
    "C12_rotate_keeps_length",
    "C12_rotate_orientation"
   ],
   "note": "over the reals; extra: orientation of the null vector is not rejected (refuted)"
  },
  {
   "property": "C13",
   "status": "partial",
   "theorems": [
    "C13_angle_of_polar",
    "C13_angle_with",
    "C13_collinear_is_parallel_partial",
    "C13_cos_sin",
    "C13_cross_null",
    "C13_decomposition",
    "C13_is_orthogonal_partial",
    "C13_is_parallel_exact_refuted",
    "C13_is_parallel_tolerance_partial",
    "C13_line_is_orthogonal_partial",
    "C13_null_direction",
    "C13_projection_deviation"
   ],
   "note": "projection, deviation, cos, sin, angle proved; the exactness of is_parallel is false of the code (rounding to 7 digits), refuted, with the exact tolerance proved"
  },
  {
   "property": "C14",
   "status": "proved",
   "theorems": [
    "C14_composition",
    "C14_identity_tag",
    "C14_in_place_product",
    "C14_linear_product_defined_refuted",
    "C14_linear_product_partial",
    "C14_product"
   ],
   "note": "affine class: full; Transformation2D: the product of differently typed transformations raises (refuted), right when defined"
  },
  {
   "property": "C15",
   "status": "partial",
   "theorems": [
    "C15_rotation_at",
    "C15_rotation_at_center",
    "C15_rotation_at_rigid",
    "C15_scalar_partial",
    "C15_scalar_rigid_refuted",
    "C15_scale",
    "C15_translation"
   ],
   "note": "geometry proved; scalars: refuted for products without type, proved for tagged transformations"
  },
  {
   "property": "C16",
   "status": "proved",
   "theorems": [
    "C16_cubic_split",
    "C16_cubic_split_at_two",
    "C16_quadratic_split",
    "C16_quadratic_split_at_two",
    "C16_quadratic_split_outside"
   ],
   "note": "All control polygons; a quadratic split outside (0,1) returns the whole curve and None, as written."
  },
  {
   "property": "C17",
   "status": "proved",
   "theorems": [
    "C17_control_box",
    "C17_cubic_bernstein",
    "C17_cubic_casteljau",
    "C17_cubic_ends",
    "C17_cubic_tangent",
    "C17_cubic_tangent1",
    "C17_quadratic_bernstein",
    "C17_quadratic_casteljau",
    "C17_quadratic_ends",
    "C17_quadratic_normal0",
    "C17_quadratic_tangent",
    "C17_quadratic_tangent0",
    "C17_quadratic_tangent1_refuted",
    "C17_to_cubic"
   ],
   "note": "tangent1 of a quadratic curve calls itself (RecursionError): shown as C17_quadratic_tangent1_refuted; everything in the statement holds."
  },
  {
   "property": "C18",
   "status": "proved",
   "theorems": [
    "C18_basis",
    "C18_constructor",
    "C18_end"
   ],
   "note": "Every degree and number of points; at the very end of the range all the basis functions are zero (C18_end), as the statement excepts."
  },
  {
   "property": "C19",
   "status": "partial",
   "theorems": [
    "C19_deboor_partial",
    "C19_end_refuted",
    "C19_naive_refuted",
    "C19_unclamped_refuted",
    "C19_uniform_ends"
   ],
   "note": "Proved from the knot number degree on and before the knot number n, for every knot vector of the right length, plus both ends of uniform splines. False before the knot number degree of unclamped knots (negative indices), at the end of splines with given knots (TypeError), and for the naive evaluation (always TypeError)."
  },
  {
   "property": "C20",
   "status": "partial",
   "theorems": [
    "C20_bezier_form",
    "C20_end_refuted",
    "C20_insert_knot",
    "C20_joined",
    "C20_to_bezier",
    "C20_to_bezier_refused"
   ],
   "note": "insert_knot and to_bezier_form keep every point before the end of the domain; the curves of to_bezier have the points of the spline up to their ends (C20_joined); at the end the spline obtained by insertion raises TypeError (C20_end_refuted)."
  },
  {
   "property": "C21",
   "status": "partial",
   "theorems": [
    "C21_line_intersection_partial",
    "C21_line_intersection_refuted",
    "C21_parallel_lines",
    "C21_segment_intersection_partial"
   ],
   "note": "exact above the absolute tolerance 5e-8 on the cross product; refuted below (short direction vectors of crossing lines are called parallel)"
  },
  {
   "property": "C22",
   "status": "partial",
   "theorems": [
    "C22_distance_to_line",
    "C22_projected_point_partial",
    "C22_projected_point_refuted",
    "C22_shifted_parallel_line",
    "C22_triangle_projected_point_partial",
    "C22_x_from_y",
    "C22_y_from_x"
   ],
   "note": "distance, parallels and coordinates proved; projected_point and triangle_projected_point proved for unit directions only, refuted otherwise"
  },
  {
   "property": "C23",
   "status": "proved",
   "theorems": [
    "C23_intersect_with"
   ],
   "note": "exact for all segments, including collinear and degenerate ones"
  },
  {
   "property": "C24",
   "status": "proved",
   "theorems": [
    "C24_polyline_distance",
    "C24_segment_distance"
   ],
   "note": "all segments including degenerate ones, all polylines of at least two points"
  },
  {
   "property": "C25",
   "status": "partial",
   "theorems": [
    "C25_contain_point_partial",
    "C25_contain_point_refuted",
    "C25_is_collinear",
    "C25_left_of",
    "C25_one_side",
    "C25_right_of"
   ],
   "note": "contain_point refuted in both directions; holds for unit length segments and points of their line; left_of and is_collinear proved"
  },
  {
   "property": "C26",
   "status": "proved",
   "theorems": [
    "C26_affine",
    "C26_area",
    "C26_barycenter",
    "C26_clockwise",
    "C26_first_vertex",
    "C26_reverse"
   ],
   "note": "area, barycenter and orientation equal the signed area and moment of the polygon for every centre, after any queries; first vertex, reversal and affine maps. The code answers None when its own test finds the polygon not simple; that test has a tolerance, so a scaling can change it: area/barycenter under scaling assume both polygons pass."
  },
  {
   "property": "C27",
   "status": "partial",
   "theorems": [
    "C27_after_close_partial",
    "C27_after_close_refuted",
    "C27_close_refuted",
    "C27_defined",
    "C27_move_refuted",
    "C27_pen_partial",
    "C27_pen_refuted",
    "C27_stringed_refuted"
   ],
   "note": "C27_pen_partial holds for every command sequence without stringed curves and without absolute=True on horizontal_to/vertical_to, which drop the other coordinate (C27_pen_refuted). Stringed curves: the quadratic one is never drawn, the cubic one has no stop point (C27_stringed_refuted). Commands after close change nothing except close(close_radius) (C27_after_close_refuted). C27_defined says when drawing succeeds."
  },
  {
   "property": "C28",
   "status": "partial",
   "theorems": [
    "C28_arc_refuted",
    "C28_corner_partial",
    "C28_corner_refuted",
    "C28_defined_partial",
    "C28_defined_refuted",
    "C28_geometry_partial",
    "C28_points",
    "C28_side_refuted"
   ],
   "note": "End points: every history, every affine transformation (C28_points). Geometry of unrounded parts other than arcs (C28_geometry_partial). Rounded corners for similarities when no direction was read before (C28_corner_partial). Refuted: a cached direction is not rotated (C28_corner_refuted), arcs keep their radii (C28_arc_refuted), sides drawn by direction change trimming (C28_side_refuted), screen transformation refused (C28_defined_refuted)."
  },
  {
   "property": "C29",
   "status": "partial",
   "theorems": [
    "C29_line_partial",
    "C29_null_segment",
    "C29_segment_refuted"
   ],
   "note": "Exactly the common points of the circle and the whole line; refuted for the segment, whose ends are not tested."
  },
  {
   "property": "C30",
   "status": "partial",
   "theorems": [
    "C30_inside_partial",
    "C30_inside_refuted",
    "C30_kinds",
    "C30_length_partial",
    "C30_length_refuted"
   ],
   "note": "Membership proved when the angles are in the same turn, length for counterclockwise domains; refuted otherwise."
  },
  {
   "property": "C31",
   "status": "partial",
   "theorems": [
    "C31_no_cycle_partial",
    "C31_no_cycle_refuted",
    "C31_only_loops_partial"
   ],
   "note": "For every history of additions, readings and evaluations, each edge of the graph goes from an earlier to a later operation, or is a loop at a point whose expression measures the point itself with Line; without such expressions there is no cycle. The full statement is false: a NormalPoint N whose angle is 'unknown + Line_N_B' is evaluated without error (the NameError is logged, the angle is dropped) and then N is connected to itself (C31_no_cycle_refuted)."
  },
  {
   "property": "C32",
   "status": "partial",
   "theorems": [
    "C32_dependencies_are_edges",
    "C32_dependencies_refuted",
    "C32_line_points_partial",
    "C32_too_early",
    "C32_unknown_compiled",
    "C32_unknown_point"
   ],
   "note": "Proved for the points given to Line, and the recorded dependencies are exactly the edges of the graph. False for the other functions: AngleLine_A_B records nothing (C32_dependencies_refuted)."
  },
  {
   "property": "C33",
   "status": "partial",
   "theorems": [
    "C33_contact_refuted",
    "C33_no_value",
    "C33_placed_partial",
    "C33_values"
   ],
   "note": "After every successful evaluation, from any state, every operation satisfies its defining relation with the values of its expressions, and for a sketch evaluated for the first time these values are the values of what is written (C33_values; the five spline functions are constant 0 in the code). Line intersections within the tolerance 5e-8 of parallelism are left out, and a point of contact is only shown to be on the circle and on the line: it may be off the segment though another contact point is on it (C33_contact_refuted). A NormalPoint whose angle has an unknown name is placed with the angle 0."
  },
  {
   "property": "C34",
   "status": "proved",
   "theorems": [
    "C34_added_is_found",
    "C34_arguments",
    "C34_arguments_taken",
    "C34_failed_add",
    "C34_found",
    "C34_has",
    "C34_unknown_refused"
   ],
   "note": "Invariant over every history, including failed constructors, explicit ids and ids taken by other objects. Names refer to the latest point of that name."
  },
  {
   "property": "C35",
   "status": "partial",
   "theorems": [
    "C35_current_refuted",
    "C35_customs_refuted",
    "C35_pairs_refuted",
    "C35_rewriting_partial",
    "C35_unchanged",
    "C35_unknown",
    "C35_word_refuted"
   ],
   "note": "Formulas are modelled as character lists with find, replace, split and the identifier scan of Calculator.py. Proved for every formula in which no measured pair is the beginning of another one, CurrentLength is written once and a single custom measurement is used: the output is the token by token translation. Without one of these conditions the claim is false (refuted with witnesses: two customs, Line_A_B beside Line_A_B1, CurrentLength twice, a name containing Line_). Parsing by ast is not modelled."
  },
  {
   "property": "C36",
   "status": "partial",
   "theorems": [
    "C36_add",
    "C36_duplicate_refuted",
    "C36_history",
    "C36_once",
    "C36_remove_partial",
    "C36_renamed"
   ],
   "note": "Scopes are a list with object identities. After any history, addition, removal by name, index and name lookup are characterised, names are reachable exactly when added more often than removed; with each name given once the whole claim holds. In general it is false because a name can be given twice (refuted with a witness)."
  },
  {
   "property": "C37",
   "status": "partial",
   "theorems": [
    "C37_added",
    "C37_history",
    "C37_identifier_partial",
    "C37_identifier_refuted",
    "C37_kept",
    "C37_names",
    "C37_rejected"
   ],
   "note": "Everything but the word identifier is proved for every history: distinct names, permitted characters, rejected additions leave the set unchanged, accepted ones are found and kept. ASCII names which start by a letter or a score are identifiers; the empty name, 1a and a fraction character are accepted too (refuted). Names are Latin-1 texts; numbers and sympy expressions are parameters."
  },
  {
   "property": "C38",
   "status": "partial",
   "theorems": [
    "C38_absent_refuted",
    "C38_booleans",
    "C38_comma_refuted",
    "C38_exact",
    "C38_integers",
    "C38_lists_refuted",
    "C38_not_boolean",
    "C38_round_trip_partial"
   ],
   "note": "Proved for every consistent attribute table and all values of the kind of their attribute, for every float type whose text is read back in one word (python str/float); integers are modelled down to the digits. The element stays in memory: lxml serialisation is not modelled. An empty list cannot be read back, None comes back as the default if there is one, and '1, 2' is refused (refuted)."
  },
  {
   "property": "C39",
   "status": "partial",
   "theorems": [
    "C39_compact_refuted",
    "C39_ends_partial",
    "C39_ends_refuted",
    "C39_first_number",
    "C39_lossless",
    "C39_newline_refuted",
    "C39_parse_partial",
    "C39_round_trip_partial",
    "C39_smooth_refuted",
    "C39_words"
   ],
   "note": "proved: every text is split into its words between spaces and commas (both ways); well formed data without T/t is read as the commands of the grammar with repetition and implicit lines, for all fuel from the length of the text; commands written are read back (floats whose text is read back); nothing is lost whatever the text; reading ends without z. Refuted: no space after a letter, newlines, T takes 3 arguments, a number after z is read for ever. Floats are a parameter; isalpha/lower on Latin-1."
  },
  {
   "property": "C40",
   "status": "partial",
   "theorems": [
    "C40_after_close_refuted",
    "C40_geometry_partial",
    "C40_no_move",
    "C40_smooth_cubic_refuted",
    "C40_smooth_quadratic_refuted",
    "C40_subpath_refuted",
    "C40_text_partial",
    "C40_vertical_refuted"
   ],
   "note": "proved: for every command list starting with a move, the parts of the path are the strokes of an independent SVG pen with their control points (and from the text too). Missing because false, with witnesses: absolute vertical lines, later moves, commands after z, smooth curves (always TypeError). Letters among the arguments are not modelled."
  },
  {
   "property": "C41",
   "status": "partial",
   "theorems": [
    "C41_list_refuted",
    "C41_order",
    "C41_order_refuted",
    "C41_repeated",
    "C41_round_trip_refuted",
    "C41_scale_refuted",
    "C41_single_partial",
    "C41_skew_refuted",
    "C41_spaces_refuted"
   ],
   "note": "One transform written without spaces is right for matrix, translate, rotate and two-value scale. Refuted: a space repeats the transform, lists are refused, the order of a list is reversed, one-value scale and skews raise, what is written is never read back."
  },
  {
   "property": "C42",
   "status": "partial",
   "theorems": [
    "C42_after_refuted",
    "C42_document",
    "C42_inherited_partial",
    "C42_linecap_refuted",
    "C42_none_refuted",
    "C42_own",
    "C42_semicolon_refuted",
    "C42_transform_partial"
   ],
   "note": "An item's own style is used; for trees where nothing follows a group and attributes no item leaves to None the innermost giver is used, and transforms compose outer to inner; the exact behaviour on every tree is C42_document. Refuted: items after a group keep its style, attributes not given reset it, a final semicolon raises, linecap/linejoin/miterlimit attributes are lost."
  },
  {
   "property": "C43",
   "status": "partial",
   "theorems": [
    "C43_default_refuted",
    "C43_round_trip_partial",
    "C43_spline_refuted",
    "C43_written"
   ],
   "note": "Proved for every operation whose line style is given and whose texts are XML texts, read in any reachable sketch which holds its points and whose last id is smaller. Missing: default line styles (KeyError when written) and the line of a spline (style lost, colour read as a text): refuted."
  },
  {
   "property": "C44",
   "status": "partial",
   "theorems": [
    "C44_again_refuted",
    "C44_dangling_refuted",
    "C44_evaluation_refuted",
    "C44_reachable",
    "C44_reading_partial",
    "C44_skipped",
    "C44_unknown_refuted"
   ],
   "note": "Proved for increasing ids larger than the last id of the process, and known points; skipping proved for all unsupported elements. Refuted: ids which do not increase (second reading), a reference to a skipped calculation, unknown tags, and pieces whose evaluation fails."
  },
  {
   "property": "C45",
   "status": "partial",
   "theorems": [
    "C45_defined",
    "C45_legs_partial",
    "C45_negative_refuted",
    "C45_side"
   ],
   "note": "Proved for all polylines: the geometry is one item per leg, and for bulges that are not negative the points shown by the item are exactly those of the leg (chord, or arc of included angle 4 atan b on the right side). Refuted for every negative bulge: the radius is negative, the centre is the one of the opposite bulge and the middle of the arc is missed (C45_negative_refuted)."
  },
  {
   "property": "C46",
   "status": "proved",
   "theorems": [
    "C46_new_item",
    "C46_once",
    "C46_order",
    "C46_paint",
    "C46_stop"
   ],
   "note": "After every history of operations on a scene. Painting visits the visible items, each one once, sorted by z value with insertion order among equal values; C46_stop describes what happens when an item has no paint method."
  },
  {
   "property": "C47",
   "status": "partial",
   "theorems": [
    "C47_careful_partial",
    "C47_read_refuted",
    "C47_remove_refuted",
    "C47_stale_refuted",
    "C47_unique"
   ],
   "note": "Uniqueness holds after every history; the full claim holds after the histories in which geometries are read after an update only and every item is reset (dirty = False) after a change of coordinates. Refuted otherwise: a geometry read before the update is never indexed, dirty = True keeps the stale box, remove_item always raises TypeError."
  },
  {
   "property": "C48",
   "status": "partial",
   "theorems": [
    "C48_box_partial",
    "C48_careful_partial",
    "C48_read_refuted",
    "C48_segments_partial"
   ],
   "note": "For every scene updated after a careful history (see C47) and every kind of geometry inside its box; for scenes of segments the distances are the true minimal distances. Refuted when a geometry was read before the update: the item is found nowhere."
  },
  {
   "property": "C49",
   "status": "partial",
   "theorems": [
    "C49_curves_partial",
    "C49_degree",
    "C49_number",
    "C49_points",
    "C49_segments_refuted"
   ],
   "note": "Proved for degrees 2 and 3 and for unsupported degrees. Refuted for degree 1: with at least one point bezier_path raises TypeError after making the segments."
  },
  {
   "property": "C50",
   "status": "partial",
   "theorems": [
    "C50_area",
    "C50_cover_partial",
    "C50_cover_refuted",
    "C50_disjoint",
    "C50_number",
    "C50_size"
   ],
   "note": "The tiles never overlap except at borders and have the right number and size; they cover the box exactly when there are as many rows as columns: the row moves the tile along x and the column along y."
  },
  {
   "property": "C51",
   "status": "proved",
   "theorems": [
    "C51_accepted",
    "C51_inches",
    "C51_landscape",
    "C51_levels",
    "C51_made",
    "C51_ratio",
    "C51_standard"
   ],
   "note": "Sizes of every letter A, B, C and level 0..10 over the real numbers; also the table of the standard to the millimetre, and that nothing else is accepted."
  },
  {
   "property": "C52",
   "status": "partial",
   "theorems": [
    "C52_kept_partial",
    "C52_kept_refuted",
    "C52_round_trip_refuted",
    "C52_round_trips_partial"
   ],
   "note": "False: mm to inch, inch to point and point to inch change every non-zero length (C52_kept_refuted). The other conversions and four round trips are proved."
  },
  {
   "property": "C53",
   "status": "partial",
   "theorems": [
    "C53_denier_partial",
    "C53_denier_refuted",
    "C53_metric_partial",
    "C53_metric_refuted"
   ],
   "note": "False: den2tex multiplies by 10/9 instead of dividing by 9 and nm2tex multiplies instead of dividing. The conversions from tex are proved right."
  },
  {
   "property": "C54",
   "status": "proved",
   "theorems": [
    "C54_clone",
    "C54_components",
    "C54_copy",
    "C54_equal",
    "C54_integers",
    "C54_round_trip",
    "C54_setters",
    "C54_text",
    "C54_valid"
   ],
   "note": "IEEE binary64 arithmetic (Flocq); every byte checked exhaustively."
  },
  {
   "property": "C55",
   "status": "partial",
   "theorems": [
    "C55_bezier_partial",
    "C55_bezier_refuted",
    "C55_path_partial",
    "C55_path_refuted"
   ],
   "note": "False: a copy of a path style loses stroke_alpha, fill_alpha, cap_style and join_style, a copy of a Bezier style loses all the path attributes; the theorems say exactly when a copy equals the original."
  },
  {
   "property": "C56",
   "status": "partial",
   "theorems": [
    "C56_append",
    "C56_clear",
    "C56_document",
    "C56_environment",
    "C56_file_partial",
    "C56_file_refuted",
    "C56_new_document",
    "C56_newpage",
    "C56_text"
   ],
   "note": "Everything is proved but the names: a name of three characters without suffix names the file .tex (C56_file_refuted)."
  },
  {
   "property": "C57",
   "status": "partial",
   "theorems": [
    "C57_failure",
    "C57_hull_partial",
    "C57_hull_refuted",
    "C57_twice_refuted"
   ],
   "note": "every list of points, also with repeated points: the hull is a subset, counterclockwise, begins at the leftmost lowest point, has every point on the left of every edge and maximises every linear functional. Refuted: two points seen in the same direction from the lowest point raise TypeError (C57_failure: exactly then), and the lowest point given twice can be twice in the hull (C57_twice_refuted)."
  },
  {
   "property": "C58",
   "status": "partial",
   "theorems": [
    "C58_flat_triangle_rejected",
    "C58_perimeter_refuted",
    "C58_point_in_triangle",
    "C58_triangle_area"
   ],
   "note": "membership, area and refusal of aligned points proved; perimeter always raises"
  },
  {
   "property": "C59",
   "status": "proved",
   "theorems": [
    "C59_bounding_box",
    "C59_point_in_rectangle",
    "C59_rectangle_area",
    "C59_rectangle_corners",
    "C59_rectangle_edges",
    "C59_rectangle_perimeter"
   ],
   "note": ""
  },
  {
   "property": "C60",
   "status": "partial",
   "theorems": [
    "C60_fat_line",
    "C60_flat_enough",
    "C60_quadratic_fat_line_refuted"
   ],
   "note": "Holds for cubic curves; fat_line of a quadratic curve always raises AttributeError."
  },
  {
   "property": "C61",
   "status": "partial",
   "theorems": [
    "C61_broken",
    "C61_default",
    "C61_interpolated_length",
    "C61_interpolated_length_refuted",
    "C61_quadratic_length_braking_refuted",
    "C61_quadratic_length_partial",
    "C61_quadratic_length_refuted"
   ],
   "note": "Arc length except when the control points are aligned and the motion first brakes: then ValueError (math domain) is raised. A non positive interpolation step never terminates."
  },
  {
   "property": "C62",
   "status": "partial",
   "theorems": [
    "C62_adaptive_pieces_partial",
    "C62_cubic_length_refuted",
    "C62_mid_point_approximation",
    "C62_t_at_length_partial",
    "C62_t_at_length_refuted",
    "C62_t_beyond_length_refuted"
   ],
   "note": "Pieces cover the curve exactly whenever the third difference is not null; otherwise (every raised quadratic) ZeroDivisionError. t_at_length raises between the ends. Accuracy of the approximation is not claimed."
  },
  {
   "property": "C63",
   "status": "partial",
   "theorems": [
    "C63_area_from_origin",
    "C63_area_partial",
    "C63_area_refuted"
   ],
   "note": "The value is the area swept from the origin: equal to the chord area exactly when the chord's line passes through the origin; refuted otherwise."
  },
  {
   "property": "C64",
   "status": "partial",
   "theorems": [
    "C64_closest_point_partial",
    "C64_closest_point_refuted",
    "C64_quadratic_closest_point_refuted"
   ],
   "note": "Returned point is a critical point of the distance; refuted: the farthest point is returned in a witness; the quadratic version never returns a point."
  },
  {
   "property": "C65",
   "status": "partial",
   "theorems": [
    "C65_cubic_axis_partial",
    "C65_intersect_line_refuted",
    "C65_quadratic_axis_partial"
   ],
   "note": "intersect_line always raises AttributeError (refuted); the remaining root finding is right once the line is the x axis, with sympy as an oracle for cubic polynomials."
  },
  {
   "property": "C66",
   "status": "partial",
   "theorems": [
    "C66_quadratic_refuted",
    "C66_to_bezier_partial",
    "C66_to_bezier_refuted",
    "C66_to_spline",
    "C66_uniform_cubic"
   ],
   "note": "to_spline and the uniform cubic spline are right; CubicUniformSpline2D.to_bezier computes the right points then raises AttributeError; the quadratic conversion is wrong."
  },
  {
   "property": "C67",
   "status": "partial",
   "theorems": [
    "C67_creation",
    "C67_history",
    "C67_perimeter",
    "C67_stale_perimeter",
    "C67_stale_refuted"
   ],
   "note": "independence of the history proved for every query sequence; refuted after apply_transformation: cached perimeter and area are kept."
  },
  {
   "property": "C68",
   "status": "partial",
   "theorems": [
    "C68_simple_partial",
    "C68_simple_refuted"
   ],
   "note": "exact characterisation with the tolerance of is_parallel; refuted for small crossing polygons."
  },
  {
   "property": "C69",
   "status": "partial",
   "theorems": [
    "C69_convex_partial",
    "C69_convex_refuted"
   ],
   "note": "exact characterisation; refuted: a straight vertex makes a clockwise polygon not convex."
  },
  {
   "property": "C70",
   "status": "partial",
   "theorems": [
    "C70_axes_partial",
    "C70_axes_refuted"
   ],
   "note": "extremal directions and lengths proved around the origin of the plane; refuted: translation changes the axes."
  },
  {
   "property": "C71",
   "status": "partial",
   "theorems": [
    "C71_crossing_refuted",
    "C71_inside_refuted"
   ],
   "note": "refuted: never answers true, AttributeError whenever vertices lie on both sides of the horizontal through the point."
  },
  {
   "property": "C72",
   "status": "partial",
   "theorems": [
    "C72_short_refuted",
    "C72_simplify_partial",
    "C72_simplify_refuted"
   ],
   "note": "subsequence, threshold < 0, area kept at threshold 0 when the first two vertices differ. Refuted for a doubled first vertex; and every polygon whose edges are not longer than a positive threshold is lost (None), however large it is (C72_short_refuted)."
  },
  {
   "property": "C73",
   "status": "partial",
   "theorems": [
    "C73_name_refuted",
    "C73_regular"
   ],
   "note": "vertices proved; refuted: ngon_name and str_name raise NameError."
  },
  {
   "property": "C74",
   "status": "partial",
   "theorems": [
    "C74_angle_for_point",
    "C74_arc_bounding_box_refuted",
    "C74_arc_distance_partial",
    "C74_arc_distance_refuted",
    "C74_arc_of_length",
    "C74_area",
    "C74_bounding_box",
    "C74_crossing_circles_refuted",
    "C74_distance",
    "C74_ends",
    "C74_from_two_points",
    "C74_inside",
    "C74_inverse",
    "C74_made",
    "C74_perimeter_refuted",
    "C74_point_at_angle",
    "C74_point_at_distance",
    "C74_rotated_arc_refuted",
    "C74_tangent",
    "C74_touching_circles_refuted",
    "C74_two_circles_partial"
   ],
   "note": "Points, angles, tangent, arc length, inside test, box, distances proved; refuted: perimeter (test inverted), box of an arc, distance to an arc with a negative start angle, two circles crossing (TypeError) or touching on the left, rotated arcs."
  },
  {
   "property": "C75",
   "status": "partial",
   "theorems": [
    "C75_bounding_box_partial",
    "C75_bounding_box_refuted",
    "C75_distance_partial",
    "C75_every_point",
    "C75_frame_in",
    "C75_frames_inverse",
    "C75_inside_refuted",
    "C75_intersect_segment_partial",
    "C75_major_vector_refuted",
    "C75_matrix_partial",
    "C75_matrix_refuted",
    "C75_on_ellipse",
    "C75_point_at_angle",
    "C75_rotation_refuted",
    "C75_scale",
    "C75_tall_ellipse_refuted",
    "C75_translation",
    "C75_vectors_refuted"
   ],
   "note": "Points, frames, line intersections when two points exist, distance up to the bisection error for wide ellipses, translations and scalings proved; refuted: tangent or missing lines raise, tall ellipses, inside test away from the origin, matrix, major vector, box and rotation of an inclined ellipse."
  },
  {
   "property": "C76",
   "status": "partial",
   "theorems": [
    "C76_chain_partial",
    "C76_clockwise_refuted",
    "C76_null_span",
    "C76_to_bezier_partial"
   ],
   "note": "Chain, end points, tangents, mid points and a bound on the deviation proved for counterclockwise domains; refuted for clockwise domains, a null span raises."
  },
  {
   "property": "C77",
   "status": "partial",
   "theorems": [
    "C77_null_radius",
    "C77_small_radius_refuted",
    "C77_start_refuted",
    "C77_through_points_partial"
   ],
   "note": "The ellipse passes through both points, at the opposites of the angles of its domain; refuted: the arc does not start at the first point, small radii raise NameError."
  },
  {
   "property": "C78",
   "status": "proved",
   "theorems": [
    "C78_arc",
    "C78_circle",
    "C78_fillet",
    "C78_rectangle"
   ],
   "note": "Every history of commands and readings; non collinear sides, positive radius."
  },
  {
   "property": "C79",
   "status": "partial",
   "theorems": [
    "C79_clone_partial",
    "C79_clone_raises",
    "C79_clone_refuted",
    "C79_polygon",
    "C79_polyline_offsets",
    "C79_polyline_refuted"
   ],
   "note": "polygon to path proved. clone never succeeds with a PathSegment, a cubic or a stringed curve (C79_clone_raises); when it succeeds the parts agree but the path is open (C79_clone_partial). Polyline points are taken as offsets (C79_polyline_refuted)."
  },
  {
   "property": "C80",
   "status": "partial",
   "theorems": [
    "C80_order_refuted",
    "C80_stable",
    "C80_value_partial"
   ],
   "note": "For additions followed by a reading the value is the evaluation of the expression with the whole set, and a value once read never changes. It does depend on when it is read: a value read before a measurement it uses is added stays unresolved (refuted on sums of names)."
  },
  {
   "property": "C81",
   "status": "partial",
   "theorems": [
    "C81_bool_refuted",
    "C81_keywords_partial"
   ],
   "note": "Proved for integers, floats, lists and strings; a python bool is always refused (refuted)."
  },
  {
   "property": "C82",
   "status": "proved",
   "theorems": [
    "C82_inherited",
    "C82_own"
   ],
   "note": "Class hierarchies are finite trees with the __mro__ as data; the table holds exactly the own and inherited attributes, and the own ones are read last."
  },
  {
   "property": "C83",
   "status": "partial",
   "theorems": [
    "C83_text_refuted"
   ],
   "note": "The claim is false: the constructor overwrites the text which was read (refuted with a witness)."
  },
  {
   "property": "C84",
   "status": "partial",
   "theorems": [
    "C84_accepted_partial",
    "C84_long_refuted",
    "C84_short_refuted",
    "C84_sign_refuted"
   ],
   "note": "False for short, long and signed texts (C84_*_refuted); what is accepted is characterised."
  },
  {
   "property": "C85",
   "status": "partial",
   "theorems": [
    "C85_ensure_text",
    "C85_ensure_twice",
    "C85_first",
    "C85_loaded",
    "C85_valentina_refuted"
   ],
   "note": "The database keeps the first definition, ensure_color is idempotent; exactly five Valentina names read as the colour of another set (C85_valentina_refuted)."
  },
  {
   "property": "C86",
   "status": "partial",
   "theorems": [
    "C86_counts_partial",
    "C86_default_refuted",
    "C86_twist_partial"
   ],
   "note": "False: without a twist type the constructor raises ValueError. The counts are right."
  },
  {
   "property": "C87",
   "status": "proved",
   "theorems": [
    "C87_bezier",
    "C87_members",
    "C87_path",
    "C87_setters",
    "C87_truth"
   ],
   "note": ""
  },
  {
   "property": "C88",
   "status": "partial",
   "theorems": [
    "C88_color_refuted",
    "C88_dash_refuted",
    "C88_invisible_refuted",
    "C88_tikz_partial"
   ],
   "note": "False for DashDotDotLine (KeyError), colours without a name and invisible lines; the rest is proved."
  },
  {
   "property": "C89",
   "status": "proved",
   "theorems": [
    "C89_copied",
    "C89_self",
    "C89_shared"
   ],
   "note": ""
  },
  {
   "property": "C90",
   "status": "proved",
   "theorems": [
    "C90_template"
   ],
   "note": "Format specifications and conversions are not modelled."
  },
  {
   "property": "C91",
   "status": "partial",
   "theorems": [
    "C91_directory_refuted",
    "C91_pdf_partial"
   ],
   "note": "output_directory always raises AttributeError; pdf_filename is proved except for names of three characters."
  },
  {
   "property": "C92",
   "status": "proved",
   "theorems": [
    "C92_selected",
    "C92_unselect",
    "C92_user_data"
   ],
   "note": "After every history of operations on a scene."
  },
  {
   "property": "C93",
   "status": "partial",
   "theorems": [
    "C93_many_partial",
    "C93_name_refuted",
    "C93_vector_refuted"
   ],
   "note": "Proved for items with several positions. Refuted for items with one position (circle, ellipse, text): the loop is on the vector or on the characters of the name."
  },
  {
   "property": "C94",
   "status": "partial",
   "theorems": [
    "C94_methods_partial",
    "C94_painters_partial",
    "C94_rectangle_refuted"
   ],
   "note": "A painter paints the whole scene exactly when it has its own method for every visible item; no painter has one for rectangles, only the Qt painter has one for ellipses, images, paths, polygons, polylines and quadratic curves."
  },
  {
   "property": "C95",
   "status": "partial",
   "theorems": [
    "C95_angle_refuted",
    "C95_quantities_partial",
    "C95_straight"
   ],
   "note": "Sagitta, dual and radius proved for all vertices and bulges; the angle property is refuted: it is the supplement of the included angle, so right only for quarters of circle."
  },
  {
   "property": "C96",
   "status": "proved",
   "theorems": [
    "C96_added",
    "C96_closed_neighbours",
    "C96_open_neighbours"
   ],
   "note": "All polylines and indices."
  },
  {
   "property": "C97",
   "status": "partial",
   "theorems": [
    "C97_ellipse_partial",
    "C97_vertical",
    "C97_vertical_refuted"
   ],
   "note": "Proved unless the major axis is vertical upwards; in that case the whole ellipse is right but the parameters are a quarter of turn off (C97_vertical, C97_vertical_refuted). The ratio is taken not negative."
  },
  {
   "property": "C98",
   "status": "partial",
   "theorems": [
    "C98_positions",
    "C98_round_trip_partial",
    "C98_scopes_refuted"
   ],
   "note": "Proved for one reachable sketch of writable operations, read with a smaller last id; the evaluation of the sketch which was read succeeds and gives the same positions when it was built with the same measurements and evaluated. Several scopes: C129. Refuted when their ids are interleaved."
  },
  {
   "property": "C99",
   "status": "partial",
   "theorems": [
    "C99_clone_error_refuted",
    "C99_clone_partial",
    "C99_constructed",
    "C99_constructible",
    "C99_equal",
    "C99_separate",
    "C99_settable",
    "C99_spline_refuted",
    "C99_untouched"
   ],
   "note": "Histories with B-splines clones and clones of triangles made flat later raise (C99_spline_refuted); everything else holds for all histories."
  },
  {
   "property": "C100",
   "status": "partial",
   "theorems": [
    "C100_clone_partial",
    "C100_honest",
    "C100_image_partial",
    "C100_in_place",
    "C100_mirrors",
    "C100_rectangle_partial",
    "C100_rectangle_refuted",
    "C100_rotate",
    "C100_scale",
    "C100_spline"
   ],
   "note": "Points are mapped exactly by every method; the figure is the image for every class (B-splines of every degree and knots: C100_spline) except rectangles, for which it holds when the axes are kept and fails for rotations (C100_rectangle_refuted). B-splines and flat triangles have no clone."
  },
  {
   "property": "C101",
   "status": "partial",
   "theorems": [
    "C101_reverse_refuted"
   ],
   "note": "Refuted: reverse returns the unchanged object for every primitive."
  },
  {
   "property": "C102",
   "status": "partial",
   "theorems": [
    "C102_length_partial",
    "C102_stale_refuted"
   ],
   "note": "Holds for the first call; later calls return the cached length (refuted)."
  },
  {
   "property": "C103",
   "status": "proved",
   "theorems": [
    "C103_inverse",
    "C103_lengths",
    "C103_similar",
    "C103_zero_refuted"
   ],
   "note": "For every history of resizes, scenes, positive zooms, fits and pans. C103_zero_refuted shows what a zoom by zero leaves behind: it is outside the quantifier."
  },
  {
   "property": "C104",
   "status": "partial",
   "theorems": [
    "C104_defined",
    "C104_early_refuted",
    "C104_resize",
    "C104_window"
   ],
   "note": "Proved for every history in which the viewport is not zoomed before it has a scene; C104_early_refuted is a history which breaks it."
  },
  {
   "property": "C105",
   "status": "partial",
   "theorems": [
    "C105_fit_partial",
    "C105_no_box_refuted",
    "C105_point_refuted"
   ],
   "note": "Proved for every box which is not a point; a one-point scene gives a zoom which is not a number and a scene without a bounding box raises (C105_point_refuted, C105_no_box_refuted)."
  },
  {
   "property": "C106",
   "status": "proved",
   "theorems": [
    "C106_pan",
    "C106_zoom"
   ],
   "note": ""
  },
  {
   "property": "C107",
   "status": "proved",
   "theorems": [
    "C107_grid",
    "C107_lines",
    "C107_step"
   ],
   "note": "Over the reals; the float computation of log10 next to a power of ten is not modelled."
  },
  {
   "property": "C108",
   "status": "partial",
   "theorems": [
    "C108_lines_partial",
    "C108_lost_refuted",
    "C108_page_refuted"
   ],
   "note": "Segments and texts proved; the page placement, circles and curves are refuted (the order of the product of transformations is inverted, circles and cubic curves are lost)"
  },
  {
   "property": "C109",
   "status": "partial",
   "theorems": [
    "C109_circle_refuted",
    "C109_corner_refuted",
    "C109_defined_partial",
    "C109_driver_refuted",
    "C109_dxf_partial",
    "C109_mpl_partial",
    "C109_pdf_partial"
   ],
   "note": "Segments, cubic curves and texts proved for the three painters; circles, the corner of the PDF page and the default driver are refuted"
  },
  {
   "property": "C110",
   "status": "partial",
   "theorems": [
    "C110_closed_refuted",
    "C110_curved_refuted",
    "C110_defined_partial",
    "C110_depicts_partial",
    "C110_ellipse_refuted",
    "C110_mirror_refuted",
    "C110_quadratic_refuted",
    "C110_rectangle_refuted"
   ],
   "note": "Proved for every item but those refuted: ellipses with an angle, closed paths, paths with curves, rectangles, quadratic curves in a transformed scene, arcs in to_svg"
  },
  {
   "property": "C111",
   "status": "partial",
   "theorems": [
    "C111_ends_partial",
    "C111_exact_partial",
    "C111_thin_refuted"
   ],
   "note": "Proved except when the stop angle is less than 1/8 degree before the start angle (refuted)"
  },
  {
   "property": "C112",
   "status": "partial",
   "theorems": [
    "C112_lines_partial",
    "C112_transformation_refuted"
   ],
   "note": "Order, coordinates, texts, segments and cubic curves proved; the transformation of the scene is ignored (refuted), circles have a fixed radius"
  },
  {
   "property": "C113",
   "status": "partial",
   "theorems": [
    "C113_fill_refuted",
    "C113_independent_partial",
    "C113_previous_refuted",
    "C113_selected_partial",
    "C113_style_partial"
   ],
   "note": "Proved for items with a stroke colour and no fill colour; items without colour and filled items are refuted"
  },
  {
   "property": "C114",
   "status": "partial",
   "theorems": [
    "C114_comment_refuted",
    "C114_defined_partial",
    "C114_items",
    "C114_polyline_refuted",
    "C114_shape_refuted"
   ],
   "note": "soundness for every document; defined when attributes are legible and there are no comments, ellipses or polygons, which are refuted"
  },
  {
   "property": "C115",
   "status": "partial",
   "theorems": [
    "C115_keyword_refuted",
    "C115_number_partial",
    "C115_percent_refuted",
    "C115_unit_refuted",
    "C115_written_refuted"
   ],
   "note": "numbers; units, writing, percentages and keywords refuted"
  },
  {
   "property": "C116",
   "status": "partial",
   "theorems": [
    "C116_comma_refuted",
    "C116_origin_refuted",
    "C116_view_box_partial"
   ],
   "note": "exact iff the corner is the origin; other corners and comma-space separators refuted"
  },
  {
   "property": "C117",
   "status": "partial",
   "theorems": [
    "C117_default_refuted",
    "C117_radius_refuted",
    "C117_rounded_partial",
    "C117_sharp_partial"
   ],
   "note": "ry only; rx alone and missing x, y refuted"
  },
  {
   "property": "C118",
   "status": "proved",
   "theorems": [
    "C118_page"
   ],
   "note": "the page and its elements, for all papers, lists and transformations"
  },
  {
   "property": "C119",
   "status": "partial",
   "theorems": [
    "C119_comment_refuted",
    "C119_element_partial",
    "C119_file_partial",
    "C119_path_refuted",
    "C119_transform_refuted"
   ],
   "note": "values without path data, transformation or units; file without its comment; the comment, path data and transformation refuted"
  },
  {
   "property": "C120",
   "status": "partial",
   "theorems": [
    "C120_ellipse_refuted",
    "C120_line_refuted",
    "C120_plain",
    "C120_quadratic_refuted",
    "C120_spline",
    "C120_splines_refuted"
   ],
   "note": "Bezier curves, circles and arcs, whole ellipses, polygons, polylines, rectangles, segments, triangles and cubic open uniform splines: proved for all values. Refuted: every other spline raises and nothing is drawn (C120_splines_refuted, with the exception in each case), an elliptical arc is drawn whole, a line is not implemented."
  },
  {
   "property": "C121",
   "status": "partial",
   "theorems": [
    "C121_arc_refuted",
    "C121_item_arc_refuted",
    "C121_item_partial",
    "C121_item_refuted",
    "C121_null_arc_refuted",
    "C121_segments_partial",
    "C121_stringed_refuted",
    "C121_twice_refuted"
   ],
   "note": "Proved as many items for paths without arcs, closed once, whose rounded corners are between straight parts of different directions; as one item for paths without rounded corners and arcs. Refuted: arcs of a path (angles of the SVG axes, null radius), closing twice with a radius, rounded corners and arcs as one item."
  },
  {
   "property": "C122",
   "status": "partial",
   "theorems": [
    "C122_back",
    "C122_covers_partial",
    "C122_ellipse_refuted",
    "C122_path_refuted",
    "C122_text_refuted"
   ],
   "note": "Proved for all items but texts, paths and images, and whole ellipses. Refuted: an elliptical arc has the whole ellipse, a path an empty path, a text a null rectangle."
  },
  {
   "property": "C123",
   "status": "partial",
   "theorems": [
    "C123_coordinates",
    "C123_default_refuted",
    "C123_defined",
    "C123_drawn_partial",
    "C123_names_refuted"
   ],
   "note": "Proved for sketches whose points have different names, with the exact condition for a drawing to exist (C123_defined). Refuted: two points with the same name put lines elsewhere (C123_names_refuted); the default line style None of the points built on a line makes detail_scene raise ValueError (C123_default_refuted)."
  },
  {
   "property": "C124",
   "status": "partial",
   "theorems": [
    "C124_box_partial",
    "C124_defined",
    "C124_drawing_refuted",
    "C124_spline_refuted"
   ],
   "note": "The box holds what all operations make and is the smallest one holding their defining points; it is the smallest one without splines. Refuted: a spline makes it too large (C124_spline_refuted); discs and labels of the drawing are out of the box which the scene gets (C124_drawing_refuted)."
  },
  {
   "property": "C125",
   "status": "partial",
   "theorems": [
    "C125_code_partial",
    "C125_is_float",
    "C125_nan_refuted",
    "C125_quote_refuted",
    "C125_rebuilt_partial",
    "C125_style_refuted"
   ],
   "note": "The code is a call which can be read in one way, and the constructor makes the same attributes, when line style and colour are None and texts have no quote, backslash or line end. Refuted: line styles and colours are printed as nothing, which is a syntax error for lines and splines with their defaults (C125_style_refuted); quotes are not escaped (C125_quote_refuted); the text nan is printed bare (C125_nan_refuted). The id is not part of the code."
  },
  {
   "property": "C126",
   "status": "partial",
   "theorems": [
    "C126_angle",
    "C126_moved",
    "C126_offset_refuted",
    "C126_scaled",
    "C126_side_refuted",
    "C126_sides",
    "C126_transformed_refuted",
    "C126_triangle_partial",
    "C126_unique"
   ],
   "note": "Proved with both sides and no axial offset: the polygon has the tip and the ends of the base, which are determined by the direction, the length and the half width; it depends on the orientation only, moves with the anchor, and the angle is the one at the tip. Refuted: with one side or an axial offset an AttributeError is raised, and the tip point is stale after a transformation."
  },
  {
   "property": "C127",
   "status": "partial",
   "theorems": [
    "C127_outline_partial",
    "C127_side_refuted",
    "C127_symmetric_refuted"
   ],
   "note": "Proved with both sides and no axial offset: a closed loop by the tip, the left and the right ends with the curves asked for, and a null segment added. Refuted: it is symmetric only when the depth is zero (or the head is a point); one side or an axial offset raises an AttributeError."
  },
  {
   "property": "C128",
   "status": "partial",
   "theorems": [
    "C128_defined",
    "C128_ignored_refuted",
    "C128_items_partial",
    "C128_knots_refuted",
    "C128_list_refuted"
   ],
   "note": "Proved: exactly which model spaces are imported without exception, one item per supported entity in order, with exactly the points of the entity for lines, circles, arcs with angles in [0, 360], ellipses whose major axis is not the upward vertical, polylines with bulges >= 0 and splines with uniform clamped knots without weights. Refuted: polylines give lists; knots and weights are ignored, so that a point which is not of the curve is shown."
  },
  {
   "property": "C129",
   "status": "partial",
   "theorems": [
    "C129_measurements_refuted",
    "C129_required",
    "C129_round_trip_partial",
    "C129_unit_refuted",
    "C129_unnamed_refuted"
   ],
   "note": "Proved for every pattern whose unit is a non-empty text, whose scopes are named, built with the measurements and evaluated, with writable operations, and whose ids are not interleaved and above the last one of the process; the file of measurements is found. Refuted: no unit, measurements not found, scope without name; interleaved ids are C98_scopes_refuted. Missing: the style of splines (C43)."
  },
  {
   "property": "C130",
   "status": "partial",
   "theorems": [
    "C130_details",
    "C130_lost_refuted",
    "C130_required"
   ],
   "note": "Proved: exactly which modelings and details are accepted once the calculations are read and evaluated, and what is then the scope. Refuted: the pattern keeps neither the modeling nor the details."
  },
  {
   "property": "C131",
   "status": "proved",
   "theorems": [
    "C131_date_refused",
    "C131_dates",
    "C131_text_refuted",
    "C131_times",
    "C131_written"
   ],
   "note": "For every text: the accepted texts are exactly the written dates and times, and the text of a date is read back. Beside the claim: the text of a time (str of a datetime) is not accepted (C131_text_refuted), nor a plain date where a time is asked (C131_date_refused)."
  },
  {
   "property": "C132",
   "status": "proved",
   "theorems": [
    "C132_none_refuted",
    "C132_personal",
    "C132_plain_refuted",
    "C132_unknown_refuted"
   ],
   "note": "For every keyword arguments. Beside the claim: a name None is kept as the text None, an unknown keyword is ignored, a birth date given as a time stays a time (the three _refuted theorems)."
  },
  {
   "property": "C133",
   "status": "proved",
   "theorems": [
    "C133_accepted",
    "C133_clash_refuted",
    "C133_formula",
    "C133_found",
    "C133_iteration_refuted",
    "C133_own_name_refuted",
    "C133_set",
    "C133_value"
   ],
   "note": "For every sequence. Beside the claim: distinct Valentina names can clash (@a and C_a), a name with @ inside or a space is not found under the name given, an iteration gives the custom measurements twice. The import of Measurements, which does not exist, is repaired."
  },
  {
   "property": "C134",
   "status": "partial",
   "theorems": [
    "C134_comment_refuted",
    "C134_file",
    "C134_format_refuted",
    "C134_unit_refuted"
   ],
   "note": "Proved for every tree. Refuted: the format shown in the comment of the module (without customer) is refused, a comment among the measurements stops the reading, the unit of the file is not given to the measurements."
  },
  {
   "property": "C135",
   "status": "partial",
   "theorems": [
    "C135_bisectors_partial",
    "C135_bisectors_refuted",
    "C135_medians"
   ],
   "note": "The lines are the medians (C135_medians); they bisect an angle exactly when its two sides are equal (C135_bisectors_partial), not in general (C135_bisectors_refuted)."
  },
  {
   "property": "C136",
   "status": "partial",
   "theorems": [
    "C136_acute_refuted",
    "C136_directions",
    "C136_kinds_refuted",
    "C136_oblique_refuted",
    "C136_obtuse_refuted",
    "C136_repaired_partial"
   ],
   "note": "As written every question raises AttributeError (C136_kinds_refuted). With the cache repaired the perimeter and the questions about the sides are right (C136_repaired_partial), those about the angles are wrong (C136_obtuse_refuted, C136_acute_refuted) and is_oblique is the negation of is_equilateral."
  },
  {
   "property": "C137",
   "status": "partial",
   "theorems": [
    "C137_centred_partial",
    "C137_distance_refuted",
    "C137_outside_refuted",
    "C137_points_partial",
    "C137_vertical_refuted"
   ],
   "note": "The points are on the line and on two sides of the box (or their extensions); they are the ends of the part in the box for lines through its centre. Refuted: other lines can give points out of the box, vertical lines raise ZeroDivisionError, distances between abscissae raise TypeError."
  },
  {
   "property": "C138",
   "status": "partial",
   "theorems": [
    "C138_ceil",
    "C138_clamp",
    "C138_close",
    "C138_cmp",
    "C138_epsilon",
    "C138_middle",
    "C138_range",
    "C138_rint",
    "C138_symmetric_refuted",
    "C138_vector_rint"
   ],
   "note": "rint, ceil_int, cmp, clamp and the tolerance exactly as stated over the reals; almost_equal is not symmetric (C138_symmetric_refuted)."
  },
  {
   "property": "C139",
   "status": "partial",
   "theorems": [
    "C139_load_refuted",
    "C139_round_partial",
    "C139_save_refuted",
    "C139_taken",
    "C139_two_values",
    "C139_value_refuted"
   ],
   "note": "Saving raises LookupError and empties the file, loading raises LookupError (encoding 'uft8'). With a known codec: the measurements come back in the order of the names with the same names, texts and expressions of the same worth; a number comes back as a text and its value has three digits (refuted for the value)."
  },
  {
   "property": "C140",
   "status": "proved",
   "theorems": [
    "C140_accepted",
    "C140_found",
    "C140_shipped"
   ],
   "note": "The file is modelled from the YAML value on; names which are floating-point numbers are not modelled. The file of the repository is transcribed by a script."
  },
  {
   "property": "C141",
   "status": "partial",
   "theorems": [
    "C141_atomic_refuted",
    "C141_loaded_partial",
    "C141_missing",
    "C141_shipped_refuted",
    "C141_source_refuted"
   ],
   "note": "Proved for the files of the expected shape; refuted: the file of the repository (Fibres for Fibers), the sources of synthetic fibres, a refused file leaves fibres."
  },
  {
   "property": "C142",
   "status": "partial",
   "theorems": [
    "C142_accepted",
    "C142_loaded_refuted",
    "C142_missing",
    "C142_shipped_refuted",
    "C142_unknown_refuted"
   ],
   "note": "Refuted: nothing is ever added, the file of the repository is refused, a stitch needs all its numbers."
  },
  {
   "property": "C143",
   "status": "partial",
   "theorems": [
    "C143_fabric_refuted",
    "C143_machine_partial",
    "C143_seam_refuted",
    "C143_spelling_refuted"
   ],
   "note": "Refuted for the fabrics and the seams; a machine needs all its numbers and a misspelled argument."
  },
  {
   "property": "C144",
   "status": "partial",
   "theorems": [
    "C144_arc_refuted",
    "C144_corner_refuted",
    "C144_curve_refuted",
    "C144_defined",
    "C144_holds_partial",
    "C144_least",
    "C144_raises",
    "C144_stringed_refuted",
    "C144_tight"
   ],
   "note": "Every drawing history. Holds for lines, curves and upright arcs, least for the control points; refuted for curves (not least), rounded corners, turned arcs, stringed curves."
  },
  {
   "property": "C145",
   "status": "partial",
   "theorems": [
    "C145_arithmetic_refuted",
    "C145_clone_refuted",
    "C145_compose_partial",
    "C145_compose_refuted",
    "C145_difference",
    "C145_equal",
    "C145_from_list",
    "C145_from_list_refuted",
    "C145_image_partial",
    "C145_in_place",
    "C145_point",
    "C145_products",
    "C145_sum",
    "C145_to_vector_refuted",
    "C145_weight_refuted"
   ],
   "note": "With weight one the images and compositions are right, lists are read in order; refuted for other weights (lost by each operation), for arithmetic with a homogeneous right operand, for from_list of the class."
  },
  {
   "property": "C146",
   "status": "partial",
   "theorems": [
    "C146_built_refuted",
    "C146_operations_refuted",
    "C146_scaled_refuted",
    "C146_unit"
   ],
   "note": "to_normalised is right for every non null vector of another class; the class does not keep the length, and its vectors cannot be transformed, divided or normalised."
  },
  {
   "property": "C147",
   "status": "partial",
   "theorems": [
    "C147_affine_refuted",
    "C147_list",
    "C147_mixed_refuted",
    "C147_number_refuted",
    "C147_plane_copy",
    "C147_plane_refuted"
   ],
   "note": "Lists of nine coefficients and typed copies of plane transformations are right; affine copies, plane copies without type and numbers are refuted."
  },
  {
   "property": "C148",
   "status": "partial",
   "theorems": [
    "C148_bytes_refuted",
    "C148_characters_refuted",
    "C148_found",
    "C148_missing",
    "C148_relative_refuted",
    "C148_str_refuted"
   ],
   "note": "Decided for every tree and list of directories; refuted for one directory given as a str, and for bytes with a str name."
  },
  {
   "property": "C149",
   "status": "partial",
   "theorems": [
    "C149_again",
    "C149_home",
    "C149_normal",
    "C149_nowhere_refuted",
    "C149_other_home",
    "C149_parent",
    "C149_parent_of_file",
    "C149_parent_refuted",
    "C149_place",
    "C149_unique_partial",
    "C149_unique_refuted"
   ],
   "note": "Place, normal form, idempotence, parents of absolute paths proved; refuted: uniqueness (two slashes), paths which lead nowhere, parents of relative paths and of paths with a final slash."
  },
  {
   "property": "C150",
   "status": "partial",
   "theorems": [
    "C150_cores_partial",
    "C150_cores_refuted",
    "C150_cpu_partial",
    "C150_cpu_refuted",
    "C150_described_partial",
    "C150_frequency_refuted",
    "C150_memory",
    "C150_systems_refuted"
   ],
   "note": "Right for Linux files of the usual form; refuted for other lines with the word, colons in names, missing frequency, other systems. The rounding of the frequency is a parameter."
  },
  {
   "property": "C151",
   "status": "partial",
   "theorems": [
    "C151_file",
    "C151_level",
    "C151_level_refuted",
    "C151_osx_refuted",
    "C151_prepared",
    "C151_systems_refuted"
   ],
   "note": "What setup_logging makes of every configuration is decided; refuted on macOS (escapes kept), on other systems and for names which are no level. dictConfig is a parameter."
  },
  {
   "property": "C152",
   "status": "partial",
   "theorems": [
    "C152_call",
    "C152_direct_refuted",
    "C152_distance",
    "C152_import_refuted",
    "C152_import_repaired",
    "C152_lines_refuted",
    "C152_points_refuted"
   ],
   "note": "Refuted: the module cannot be imported before python 3.14 and no primitive can be made through a sketch; how calls bind their arguments and Distance are proved."
  },
  {
   "property": "C153",
   "status": "partial",
   "theorems": [
    "C153_application",
    "C153_choice",
    "C153_member",
    "C153_none",
    "C153_nothing_else",
    "C153_order",
    "C153_qapp_refuted",
    "C153_signals_pyqt5",
    "C153_signals_pyside2",
    "C153_version_refuted"
   ],
   "note": "Choice of the binding, import of every common member, of the moved members which are true, and of nothing else, for all environments and bindings. Refuted: a moved member which is false is replaced by its module; qApp takes the name QApplication; unreadable versions are an error although another binding is installed."
  },
  {
   "property": "C154",
   "status": "partial",
   "theorems": [
    "C154_again",
    "C154_directive",
    "C154_ends",
    "C154_missing",
    "C154_names_refuted",
    "C154_once",
    "C154_order",
    "C154_other"
   ],
   "note": "Termination, failure exactly on missing files, each reached file once, places of the lines and repeated includes, for all sources and finite sets of files. Refuted: two names of a file are two files; indented includes are text; a last line without newline runs into the next."
  },
  {
   "property": "C155",
   "status": "partial",
   "theorems": [
    "C155_again",
    "C155_any_refuted",
    "C155_lines",
    "C155_plain",
    "C155_refused",
    "C155_version"
   ],
   "note": "Version of the tag, lines changed and kept, repetition, refusal, for all tags and files. Refuted: any text with a digit at its start is a version."
  },
  {
   "property": "C156",
   "status": "partial",
   "theorems": [
    "C156_messages",
    "C156_paths",
    "C156_scene",
    "C156_script",
    "C156_script_refuted",
    "C156_single"
   ],
   "note": "Single application, signals of the scene, destinations of messages, execution of scripts and paths of options, for all histories and scripts. Refuted: unreadable scripts are reported to nobody."
  },
  {
   "property": "C157",
   "status": "partial",
   "theorems": [
    "C157_before_refuted",
    "C157_flat_refuted",
    "C157_moved_partial",
    "C157_stale_refuted"
   ],
   "note": "The points move as described once the barycenter was asked for; the polygon keeps answering its former barycenter and edges, the call fails when nothing was asked, and a polygon of null area is torn."
  },
  {
   "property": "C158",
   "status": "partial",
   "theorems": [
    "C158_foot_partial",
    "C158_foot_refuted",
    "C158_orthogonal",
    "C158_orthogonal_at_abscissa",
    "C158_parallel",
    "C158_parallel_never_meets"
   ],
   "note": "Above the tolerance of the test of parallelism; with a short direction the perpendicular is said to be parallel to the line."
  },
  {
   "property": "C159",
   "status": "proved",
   "theorems": [
    "C159_nine_numbers",
    "C159_reflections",
    "C159_reflections_compose",
    "C159_rows",
    "C159_screen"
   ],
   "note": ""
  },
  {
   "property": "C160",
   "status": "partial",
   "theorems": [
    "C160_add_commutes",
    "C160_associative_refuted",
    "C160_cancel_refuted",
    "C160_cross_exchanged",
    "C160_cross_self_partial",
    "C160_cross_self_refuted",
    "C160_distance_back",
    "C160_quarter_turn_at",
    "C160_quarter_turns",
    "C160_rounded",
    "C160_sub_self"
   ],
   "note": "Adding and taking away does not always give back the vector, the sum is not associative, and the cross product of a huge vector with itself is not a number."
  },
  {
   "property": "C161",
   "status": "partial",
   "theorems": [
    "C161_cubic_end_refuted",
    "C161_cubic_start_partial",
    "C161_line_end_refuted",
    "C161_line_start_partial",
    "C161_null_segment_refuted",
    "C161_quadratic_ends_partial",
    "C161_quadratic_overflow_refuted",
    "C161_segment_ends"
   ],
   "note": "Segments and quadratic curves (without overflow) end exactly at their points, cubic curves and lines start there; cubic curves and lines may miss the last point, and a null segment does not stay at its point."
  },
  {
   "property": "C162",
   "status": "partial",
   "theorems": [
    "C162_between_partial",
    "C162_center",
    "C162_exchanged",
    "C162_overflow_refuted",
    "C162_same_partial"
   ],
   "note": "Unless the sum of the coordinates overflows."
  },
  {
   "property": "C163",
   "status": "partial",
   "theorems": [
    "C163_back_refuted",
    "C163_identity",
    "C163_scaling",
    "C163_screen",
    "C163_screen_twice_refuted",
    "C163_translation"
   ],
   "note": "All but the way back: a translation and the opposite one, or the screen twice, may not give back the point."
  },
  {
   "property": "C164",
   "status": "proved",
   "theorems": [
    "C164_cancel",
    "C164_cross",
    "C164_cubic",
    "C164_length",
    "C164_length_exact",
    "C164_line",
    "C164_off_grid",
    "C164_quadratic",
    "C164_segment",
    "C164_split_cubic",
    "C164_split_quadratic",
    "C164_sums",
    "C164_transformation"
   ],
   "note": "For every grid whose step is a power of two between 2^-400 and 2^400; C164_off_grid shows that the hypothesis is needed."
  },
  {
   "property": "C165",
   "status": "partial",
   "theorems": [
    "C165_collinear_refuted",
    "C165_crossing",
    "C165_ends_partial",
    "C165_inside",
    "C165_never_opposite_partial",
    "C165_orientation",
    "C165_same_side",
    "C165_sides",
    "C165_turns"
   ],
   "note": "Exact on every grid of at most 2^23 steps; in general proved for the ends of a segment (without overflow) and, with exact differences, no side is inverted. False in general: C165_collinear_refuted."
  },
  {
   "property": "C166",
   "status": "partial",
   "theorems": [
    "C166_cross_partial",
    "C166_length_partial",
    "C166_length_refuted",
    "C166_segment_partial",
    "C166_side_partial"
   ],
   "note": "Proved when the numbers are null or between 2^-500 and 2^500 in absolute value; false for smaller ones: C166_length_refuted."
  },
  {
   "property": "C167",
   "status": "partial",
   "theorems": [
    "C167_area",
    "C167_area_refuted",
    "C167_mean",
    "C167_mean_inside",
    "C167_mean_refuted"
   ],
   "note": "Proved for coordinates on a grid of step 2^e: the mean is the exact one rounded once and stays in the box, the area is exact in every order of the sum. False for decimal numbers: C167_mean_refuted, C167_area_refuted."
  },
  {
   "property": "C168",
   "status": "partial",
   "theorems": [
    "C168_fit_refuted",
    "C168_inches_refuted",
    "C168_monotone",
    "C168_page",
    "C168_sheets"
   ],
   "note": "Proved: same names accepted, sides in mm, inches and points right to 1e-14 for every pow within one unit in the last place, mm_to_pt monotone. Refuted: consecutive sheets share a side exactly; inches are a whole number of points."
  },
  {
   "property": "C169",
   "status": "partial",
   "theorems": [
    "C169_box_refuted",
    "C169_cubic",
    "C169_line",
    "C169_quadratic",
    "C169_segment",
    "C169_split_cubic",
    "C169_split_quadratic"
   ],
   "note": "Proved for all coordinates, parameters in [0,1] and accurate pow: bounds 24, 300, 8, 3.1, 7, 10 units of rounding of the size, underflow included. Refuted: a curve stays in the box of its control points."
  },
  {
   "property": "C170",
   "status": "partial",
   "theorems": [
    "C170_area",
    "C170_perimeter_partial",
    "C170_plain_sum",
    "C170_sense",
    "C170_sense_refuted",
    "C170_triangle"
   ],
   "note": "Proved: bounds for polygons (any order of the sum), triangles, perimeters (edges neither tiny nor huge), sense right when the area exceeds the error, sums from left to right accurate. Refuted: the sense of every polygon is right."
  },
  {
   "property": "C171",
   "status": "partial",
   "theorems": [
    "C171_from_angle",
    "C171_length",
    "C171_matrix",
    "C171_quarter_refuted",
    "C171_radians",
    "C171_rotate"
   ],
   "note": "Proved for all vectors, angles of at most one turn and accurate cos and sin: bounds 35 (rotate), 38 (matrix), 53 (length), 15, 17, 17 units of rounding; radians for every angle to 2 units. Refuted for every accurate cos: a quarter of a turn is exact."
  },
  {
   "property": "C172",
   "status": "partial",
   "theorems": [
    "C172_angle",
    "C172_cosine",
    "C172_distance",
    "C172_projection",
    "C172_self_refuted",
    "C172_sine",
    "C172_unit"
   ],
   "note": "Proved for all ordinary vectors which are not null: cosines and sines in [-1, 1] and right to 12/2^53, projections, deviations and distances to 8/2^53 of the length, unit vectors to 5/2^53, angles to 6/10^6 degrees with the right sign when the cross product exceeds its error. Refuted for every accurate acos: the angle of a vector with itself is null."
  },
  {
   "property": "C173",
   "status": "partial",
   "theorems": [
    "C173_abscissae",
    "C173_any_apart",
    "C173_any_cross",
    "C173_apart",
    "C173_cross",
    "C173_meet",
    "C173_order_refuted",
    "C173_point",
    "C173_segment",
    "C173_short_refuted"
   ],
   "note": "Proved: abscissae, points of lines and segments, the decision for any segments away from their ends, uniqueness of the meeting point. Refuted: the order of the lines does not matter (C173_order_refuted); lines which are not parallel always have an intersection (C173_short_refuted)."
  },
  {
   "property": "C174",
   "status": "partial",
   "theorems": [
    "C174_distance",
    "C174_least",
    "C174_on_refuted"
   ],
   "note": "Proved: the bound for every case, existence of the least distance. Refuted: the distance is null for a point of the segment given by interpolate (C174_on_refuted). Only for differences of coordinates which are doubles."
  },
  {
   "property": "C175",
   "status": "proved",
   "theorems": [
    "C175_back",
    "C175_drift",
    "C175_length"
   ],
   "note": "By induction on the list of rotations, from C171_rotate."
  },
  {
   "property": "C176",
   "status": "partial",
   "theorems": [
    "C176_absolute",
    "C176_closed_refuted",
    "C176_grid",
    "C176_grid_closed",
    "C176_path"
   ],
   "note": "Proved: the bound for every list of segments, absolute points end the drift, paths on a grid are exact and closed ones come back. Refuted: a path of relative moves whose sum is null comes back to its start (C176_closed_refuted)."
  },
  {
   "property": "C177",
   "status": "partial",
   "theorems": [
    "C177_apply",
    "C177_associative_refuted",
    "C177_compose",
    "C177_grid"
   ],
   "note": "Proved: the bounds for one transformation, for a product and for two in a row; both exact for whole coefficients on a grid. Refuted: the product acts exactly as its factors (C177_associative_refuted). The bounds only for coefficients of at most one, and the order of the sums from left to right."
  }
 ]
}