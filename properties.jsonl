{"id": "C01", "title": "Object ids are unique and strictly increasing", "statement": "In one thread, creating identified objects in any order, with or without an explicit id, gives every successfully created object an id strictly greater than all ids given before it. A creation with an explicit id fails exactly when that id is not greater than the last id given, and a failed creation consumes no id.", "quantifier": "every finite history of object creations with and without explicit ids", "why_tests_cant": "uniqueness must hold for every interleaving of explicit and automatic ids, of any length", "anchors": ["Patro/Common/Object.py: ObjectGlobalIdMixin", "Patro/Common/AtomicCounter.py: AtomicCounter.increment, AtomicCounter.set"]}
{"id": "C02", "title": "No increment is lost under concurrency", "statement": "When any number of threads increment one shared counter by arbitrary amounts, once all have finished the counter reads its initial value plus the sum of all the amounts, whatever the thread schedule.", "quantifier": "every number of threads, every increment amount, every schedule", "why_tests_cant": "the set of schedules is unbounded and a test only ever sees a few of them", "anchors": ["Patro/Common/AtomicCounter.py: AtomicCounter.increment"]}
{"id": "C03", "title": "Concurrent increments return distinct values", "statement": "Increments by one made by different threads on one counter return pairwise distinct values, so ids taken concurrently are unique.", "quantifier": "every number of threads and every schedule", "why_tests_cant": "a racy schedule is practically never hit by a test", "anchors": ["Patro/Common/AtomicCounter.py: AtomicCounter.increment", "Patro/Common/Object.py: ObjectGlobalIdMixin.__init__"]}
{"id": "C04", "title": "Metaclass singleton builds one instance", "statement": "For every schedule of any number of threads instantiating a class using the singleton metaclass, the constructor runs at most once and every call that returns gives that same instance.", "quantifier": "every number of threads and every schedule", "why_tests_cant": "schedules cannot be enumerated by tests", "anchors": ["Patro/Common/Singleton.py: SingletonMetaClass.__call__"]}
{"id": "C05", "title": "Decorator singleton builds one instance", "statement": "Every call of a class decorated with the singleton decorator returns the same instance and the constructor runs once.", "quantifier": "every number of threads and every schedule", "why_tests_cant": "schedules cannot be enumerated by tests", "anchors": ["Patro/Common/Singleton.py: singleton.__call__, singleton_func"]}
{"id": "C06", "title": "Window iterators enumerate exactly the windows", "statement": "pairwise gives the consecutive pairs in order, closed_pairwise the same plus the pair (last, first), closed_iterator the items followed by the first, multiwise(n) the length-n contiguous windows in order (none if n is 0 or larger than the sequence), and the closed index iterator the n wrapped indices from every start. The empty sequence is an error for pairwise and closed_iterator.", "quantifier": "every finite sequence and every window size", "why_tests_cant": "off-by-one errors depend on the length and window size, which are unbounded", "anchors": ["Patro/Common/IterTools.py: pairwise, closed_pairwise, closed_iterator, multiwise, closed_multiwise_index_iterator"]}
{"id": "C07", "title": "Topological sort orders every DAG", "statement": "If the graph has no directed cycle, topological_sort returns every registered node exactly once (together with nodes reachable from them), every node before all its descendants, whatever order sets are iterated in.", "quantifier": "every finite graph without cycle and every set iteration order", "why_tests_cant": "the space of graphs and hash orders is unbounded", "anchors": ["Patro/Common/Graph/DirectedAcyclicGraph.py: DirectedAcyclicGraph.topological_sort"]}
{"id": "C08", "title": "Topological sort detects every cycle", "statement": "topological_sort raises its not-a-DAG error if and only if some registered node can reach a cycle; it always terminates.", "quantifier": "every finite graph and every set iteration order", "why_tests_cant": "the space of graphs and hash orders is unbounded", "anchors": ["Patro/Common/Graph/DirectedAcyclicGraph.py: DirectedAcyclicGraph.topological_sort"]}
{"id": "C09", "title": "Breadth first search visits the reachable nodes once, nearest first", "statement": "breadth_first_search from a node yields each node reachable from it exactly once, starting with itself, and by non-decreasing distance, also on graphs with cycles, and it terminates.", "quantifier": "every finite graph, start node and set iteration order", "why_tests_cant": "the space of graphs is unbounded", "anchors": ["Patro/Common/Graph/DirectedAcyclicGraph.py: DirectedAcyclicGraphNode.breadth_first_search"]}
{"id": "C10", "title": "Graph edges stay mirrored", "statement": "After any history of adding nodes, adding edges and disconnecting edges, a node is a descendant of another exactly when the latter is its ancestor; node ids stay unique; roots and leafs are exactly the nodes without ancestors and without descendants; disconnecting a missing edge is an error.", "quantifier": "every finite history of graph operations", "why_tests_cant": "invariant over unbounded histories", "anchors": ["Patro/Common/Graph/DirectedAcyclicGraph.py: connect_ancestor, disconnect_ancestor, add_node, add_edge, roots, leafs"]}
{"id": "C11", "title": "Quadratic roots are exactly the solutions", "statement": "quadratic_root(a, b, c) returns exactly the real solutions of a x^2 + b x + c = 0: none, one or two, with the sole exception a = b = 0 where it returns none.", "quantifier": "every triple of real coefficients", "why_tests_cant": "sampled coefficients miss degenerate and boundary discriminants", "anchors": ["Patro/Common/Math/Functions.py", "Patro/Common/Math/Root.py: quadratic_root"]}
{"id": "C12", "title": "Vector rotations and normals are isometric", "statement": "Rotating a vector by any angle, counter clockwise or clockwise, preserves length, dot product and cross product; rotating by a and then b is rotating by a+b; normal and anti_normal are the rotations by +90 and -90 degrees; parity is the rotation by 180.", "quantifier": "every vector and every angle", "why_tests_cant": "algebraic law over the reals", "anchors": ["Patro/GeometryEngine/Vector.py: Vector2DBase.rotate, normal, anti_normal, parity, dot, cross"]}
{"id": "C13", "title": "Projection and deviation recover the vector", "statement": "For vectors u, v with v non null, projection_on is the signed length of u along v, deviation_with the signed height over v, and the square of both adds up to the squared length of u; parallel vectors are exactly those with null cross product.", "quantifier": "every pair of vectors", "why_tests_cant": "algebraic law over the reals", "anchors": ["Patro/GeometryEngine/Vector.py: projection_on, deviation_with, is_parallel, cos_with, sin_with"]}
{"id": "C14", "title": "Composing affine transformations composes their effect", "statement": "Applying the product of two affine transformations to a point gives the same point as applying the right one and then the left one; the in-place product applies the new transformation after the existing one.", "quantifier": "every pair of affine transformations of the plane and every point", "why_tests_cant": "algebraic law over matrices", "anchors": ["Patro/GeometryEngine/Transformation.py: AffineTransformation2D.__mul__, Transformation.__imul__, __mul__"]}
{"id": "C15", "title": "Rotation about a centre and translation act rigidly", "statement": "RotationAt(center, angle) keeps the centre fixed and all distances; Translation(v) adds v; scaling multiplies each coordinate; applying a rigid transformation to a length (scalar) leaves it unchanged.", "quantifier": "every centre, angle, translation and point", "why_tests_cant": "algebraic law; and a scalar is scaled by a matrix entry that sampled angles may hide", "anchors": ["Patro/GeometryEngine/Transformation.py: AffineTransformation.Translation, RotationAt, Transformation.__mul__"]}
{"id": "C16", "title": "Splitting a Bezier curve keeps the curve", "statement": "Splitting a quadratic or cubic Bezier curve at t gives two curves that trace exactly the original curve on [0,t] and [t,1] at proportional speed, joined at the point at t; splitting at two parameters gives the sub-curve between them.", "quantifier": "every control polygon, every split parameter and every curve parameter", "why_tests_cant": "identity of polynomials over the reals", "anchors": ["Patro/GeometryEngine/Bezier.py: QuadraticBezier2D.split_at_t, CubicBezier2D.split_at_t, BezierMixin2D.split_at_two_t"]}
{"id": "C17", "title": "Bezier evaluation agrees with de Casteljau, tangent and degree elevation", "statement": "point_at_t is the Bernstein combination of the control points, starts and ends at the end points and stays in the control box for t in [0,1]; tangent_at is proportional to the derivative; to_cubic traces the same curve.", "quantifier": "every control polygon and every t", "why_tests_cant": "identity of polynomials over the reals", "anchors": ["Patro/GeometryEngine/Bezier.py: point_at_t, tangent_at, to_cubic"]}
{"id": "C18", "title": "B-spline basis is a partition of unity", "statement": "For a uniform clamped knot vector of any degree and number of points, the knots are non-decreasing and have number_of_points + degree + 1 entries, all basis functions are non-negative, vanish outside degree+1 spans, and sum to one on the parameter range except at its very end.", "quantifier": "every degree, every number of control points, every parameter", "why_tests_cant": "degree and number of points are unbounded", "anchors": ["Patro/GeometryEngine/Spline.py: BSpline2D.uniform_knots, basis_function, span"]}
{"id": "C19", "title": "De Boor evaluation is the B-spline", "statement": "For every parameter of a knot span, the de Boor evaluation of the spline equals the sum of control points weighted by the basis functions.", "quantifier": "every degree, knot vector, control polygon and parameter", "why_tests_cant": "degree and number of points are unbounded", "anchors": ["Patro/GeometryEngine/Spline.py: BSpline2D._deboor, point_at_t, basis_function"]}
{"id": "C20", "title": "Knot insertion keeps the spline", "statement": "Inserting a knot at any parameter strictly inside the domain gives a spline with one more control point that traces exactly the same curve.", "quantifier": "every degree, knot vector, control polygon, inserted knot and parameter", "why_tests_cant": "degree and number of points are unbounded", "anchors": ["Patro/GeometryEngine/Spline.py: BSpline2D.insert_knot, to_bezier_form, to_bezier"]}
{"id": "C21", "title": "Line intersection is the common point", "statement": "Two lines given by point and direction intersect in exactly the returned point when their directions are not parallel and no point is returned when they are parallel.", "quantifier": "every pair of lines", "why_tests_cant": "algebraic law over the reals", "anchors": ["Patro/GeometryEngine/Line.py: Line2D.intersection_abscissae, intersection"]}
{"id": "C22", "title": "Projection on a line is the nearest point", "statement": "The projected point of a point on a line lies on the line, the connecting vector is perpendicular to it, and the reported distance is its length and minimal among all points of the line.", "quantifier": "every line and point", "why_tests_cant": "algebraic law over the reals; unit-direction samples hide scale errors", "anchors": ["Patro/GeometryEngine/Line.py: Line2D.projected_abscissa, projected_point, distance_to_line, distance_and_abscissa_to_line"]}
{"id": "C23", "title": "Segment intersection test is exact", "statement": "Two segments are reported intersecting if and only if they share a point.", "quantifier": "every pair of segments", "why_tests_cant": "degenerate configurations (touching, collinear, null) form a measure-zero set tests miss", "anchors": ["Patro/GeometryEngine/Segment.py: Segment2D.intersect_with"]}
{"id": "C24", "title": "Distance from a point to a segment is the minimum", "statement": "distance_to_point is the smallest distance from the point to any point of the segment.", "quantifier": "every non degenerate segment and every point", "why_tests_cant": "a minimum over infinitely many points", "anchors": ["Patro/GeometryEngine/Segment.py: Segment2D.distance_to_point", "Patro/GeometryEngine/Polyline.py: Polyline2D.distance_to_point"]}
{"id": "C25", "title": "Segment membership test is exact", "statement": "contain_point answers true exactly for points on the segment (up to the tolerance).", "quantifier": "every segment and point", "why_tests_cant": "scale errors are hidden by unit segments", "anchors": ["Patro/GeometryEngine/Segment.py: Segment2D.contain_point"]}
{"id": "C26", "title": "Polygon area and barycenter are geometric", "statement": "The signed area of a polygon is unchanged by translation and by the choice of first vertex, changes sign when the vertex order is reversed, is scaled by the square of a scale factor and is unchanged by rotation; the barycenter follows every translation and does not depend on the orientation or first vertex.", "quantifier": "every polygon with any number of vertices", "why_tests_cant": "the number of vertices is unbounded", "anchors": ["Patro/GeometryEngine/Polygon.py: Polygon2D._compute_area_barycenter, area, barycenter, is_clockwise"]}
{"id": "C27", "title": "Path building follows the pen", "statement": "For any sequence of relative or absolute drawing commands, each part starts where the previous part stops, relative commands add their offset to the current point and absolute commands go to the given point (keeping the other coordinate for horizontal and vertical moves); commands after closing change nothing.", "quantifier": "every sequence of path commands", "why_tests_cant": "unbounded command histories", "anchors": ["Patro/GeometryEngine/Path.py: Path2D, PathSegment, DirectionalSegment, AbsoluteHVSegment, LinearSegment"]}
{"id": "C28", "title": "Transforming a path commutes with evaluating it", "statement": "The points of a transformed path are the transformed points of the original path, for every affine transformation.", "quantifier": "every path and affine transformation", "why_tests_cant": "unbounded command histories", "anchors": ["Patro/GeometryEngine/Path.py: Path2D.apply_transformation"]}
{"id": "C29", "title": "Circle and segment intersections are exact", "statement": "intersect_segment returns exactly the common points of circle and segment.", "quantifier": "every circle and segment", "why_tests_cant": "tangent and boundary cases have measure zero", "anchors": ["Patro/GeometryEngine/Conic.py: Circle2D.intersect_segment"]}
{"id": "C30", "title": "Arc angular domain membership and length", "statement": "An angular domain contains exactly the angles swept from start to stop in its direction and reports the swept angle as its length.", "quantifier": "every start and stop angle and every angle", "why_tests_cant": "wrap-around cases are easily missed", "anchors": ["Patro/GeometryEngine/Mixin.py: AngularDomain"]}
{"id": "C31", "title": "Sketch dependencies never form a cycle", "statement": "For every history of adding operations to a sketch and evaluating it, the dependency graph of the sketch has no cycle and the order in which operations were added is a topological order of it.", "quantifier": "every history of sketch operations and evaluations, including duplicate names and failed operations", "why_tests_cant": "unbounded histories", "anchors": ["Patro/Pattern/Sketch.py: Sketch._add_operation, eval", "Patro/Pattern/SketchOperation.py: SketchOperation.__init__, _connect_ancestor, connect_ancestor_for_expressions"]}
{"id": "C32", "title": "Expression dependencies are complete", "statement": "After evaluating a sketch, the recorded dependencies of an operation include every point its expressions mention.", "quantifier": "every sketch and every expression", "why_tests_cant": "unbounded expressions", "anchors": ["Patro/Pattern/Calculator.py: NodeVisitor, Expression._compile", "Patro/Pattern/SketchOperation.py: connect_ancestor_for_expressions"]}
{"id": "C33", "title": "Sketch evaluation places every point as specified", "statement": "After evaluating a sketch each construction point satisfies its defining relation: along-line, end-line, normal, line intersection, point of contact and point of intersection.", "quantifier": "every sketch", "why_tests_cant": "unbounded constructions over the reals", "anchors": ["Patro/Pattern/SketchOperation.py: eval_internal methods", "Patro/Pattern/Sketch.py: Sketch.eval"]}
{"id": "C34", "title": "Operations are found by id and by name", "statement": "An operation added to a sketch is found under its id forever and under its name as long as names are unique; looking up an unknown reference is an error and changes nothing.", "quantifier": "every history of added operations", "why_tests_cant": "unbounded histories", "anchors": ["Patro/Pattern/Sketch.py: _add_operation, get_operation, has_operation_id"]}
{"id": "C35", "title": "Formula rewriting replaces exactly the identifiers", "statement": "Compiling a formula substitutes every custom measurement and every special function identifier by its python counterpart, each as a whole identifier, and leaves everything else unchanged.", "quantifier": "every formula text and every set of measurement and point names", "why_tests_cant": "names that are prefixes of each other or several custom measurements are rarely sampled", "anchors": ["Patro/Pattern/Calculator.py: Expression._compile, _find_identifier"]}
{"id": "C36", "title": "Pattern scopes behave as a list of named scopes", "statement": "Adding a scope makes it reachable by name and by index; removing a scope by name makes this name unreachable and leaves all other scopes in order.", "quantifier": "every history of scope additions and removals", "why_tests_cant": "unbounded histories", "anchors": ["Patro/Pattern/Pattern.py: Pattern.add_scope, scope, remove_scope"]}
{"id": "C37", "title": "Measurement sets reject duplicates and invalid names", "statement": "A measurement set never contains two measurements with the same name, every stored name is a valid identifier, a rejected addition leaves the set unchanged, and stored measurements are found by name.", "quantifier": "every history of additions", "why_tests_cant": "unbounded histories and names", "anchors": ["Patro/Measurement/Measurement.py: Measurement._validate_name, MeasurementSet.add"]}
{"id": "C38", "title": "XML attributes survive a write and read", "statement": "Writing an object to XML and reading it back gives the same attribute values, for boolean, integer, string and list attributes; absent attributes stay absent.", "quantifier": "every attribute table and all values", "why_tests_cant": "unbounded values", "anchors": ["Patro/Common/Xml/Objectivity.py: Attribute subclasses, XmlObjectAdaptator.to_xml, _init_from_xml"]}
{"id": "C39", "title": "SVG path data is read as the SVG grammar says", "statement": "Reading SVG path data gives the list of commands with their arguments, repeating the command for extra argument groups; writing it and reading it back gives the same commands.", "quantifier": "every path data string", "why_tests_cant": "unbounded strings", "anchors": ["Patro/FileFormat/Svg/SvgFormat.py: PathDataAttribute.from_xml, to_xml"]}
{"id": "C40", "title": "SVG path commands draw the right geometry", "statement": "The geometry of SVG path data follows the pen semantics of each command.", "quantifier": "every command list", "why_tests_cant": "unbounded command lists", "anchors": ["Patro/FileFormat/Svg/SvgFormat.py: PathDataAttribute.to_geometry"]}
{"id": "C41", "title": "SVG transforms are read in order and survive a round trip", "statement": "A transform attribute is read as the list of transforms it contains, combined left to right, and writing a transform and reading it back gives the same transform.", "quantifier": "every transform list", "why_tests_cant": "unbounded lists and spacing variants", "anchors": ["Patro/FileFormat/Svg/SvgFormat.py: TransformAttribute.from_xml, to_xml, to_python"]}
{"id": "C42", "title": "SVG render state is inherited by nesting", "statement": "An SVG item is rendered with the style of its own attributes where given and otherwise with that of its innermost enclosing group that gives it; items after a group are unaffected by the group.", "quantifier": "every SVG tree", "why_tests_cant": "unbounded nesting", "anchors": ["Patro/FileFormat/Svg/SvgFile.py: RenderState.merge, RenderStateStack, SvgDispatcher.on_group"]}
{"id": "C43", "title": "Valentina operations survive a write and read", "statement": "Writing a sketch operation as Valentina XML and reading it back gives the same kind of operation with the same arguments and references.", "quantifier": "every supported operation with arbitrary arguments", "why_tests_cant": "unbounded argument space", "anchors": ["Patro/FileFormat/Valentina/VitFormat.py", "Patro/FileFormat/Valentina/Pattern.py: CalculationDispatcher"]}
{"id": "C44", "title": "Every well-formed Valentina piece can be read", "statement": "Reading a piece whose calculations only refer to earlier ids succeeds and keeps the ids; unsupported calculations are skipped without breaking the others.", "quantifier": "every sequence of calculations", "why_tests_cant": "unbounded files", "anchors": ["Patro/FileFormat/Valentina/Pattern.py: ValFileReaderInternal.read_piece, CalculationDispatcher.from_xml"]}
{"id": "C45", "title": "DXF bulges become the right arcs", "statement": "A polyline vertex with bulge b to the next vertex gives the arc through both vertices whose included angle is 4 atan b, on the side of the sign of b.", "quantifier": "every vertex pair and bulge", "why_tests_cant": "algebraic law over the reals with sign cases", "anchors": ["Patro/FileFormat/Dxf/Polyline.py: PolylineVertex, Polyline.geometry"]}
{"id": "C46", "title": "Items are painted by z value, then in insertion order", "statement": "Painting a scene visits every visible item exactly once, by non-decreasing z value and in insertion order among equal z values; invisible items are never painted.", "quantifier": "every history of scene changes", "why_tests_cant": "unbounded scenes", "anchors": ["Patro/GraphicEngine/GraphicScene/Scene.py: GraphicScene.z_value_iter", "Patro/GraphicEngine/Painter/Painter.py: Painter.paint"]}
{"id": "C47", "title": "The spatial index follows the items", "statement": "After update, the spatial index of a scene holds exactly one current bounding box for every item, after any history of additions, moves and removals.", "quantifier": "every history of scene operations", "why_tests_cant": "unbounded histories", "anchors": ["Patro/GraphicEngine/GraphicScene/Scene.py: add_item, remove_item, update_rtree, item_at", "Patro/GraphicEngine/GraphicScene/GraphicItemMixin.py: dirty, geometry, bounding_box"]}
{"id": "C48", "title": "Picking returns the items within the radius, nearest first", "statement": "item_at returns exactly the items whose distance to the position is at most the radius, sorted by distance.", "quantifier": "every scene, position and radius", "why_tests_cant": "unbounded scenes", "anchors": ["Patro/GraphicEngine/GraphicScene/Scene.py: GraphicScene.item_at"]}
{"id": "C49", "title": "A Bezier path is cut in degree sized pieces", "statement": "bezier_path on degree*m+1 points creates exactly m curves, the i-th using the points degree*i .. degree*i+degree, and rejects every other number of points.", "quantifier": "every degree and number of points", "why_tests_cant": "unbounded number of points", "anchors": ["Patro/GraphicEngine/GraphicScene/Scene.py: GraphicScene.bezier_path"]}
{"id": "C50", "title": "Paper tiles cover the drawing", "statement": "The tiles of a tiler cover the whole bounding box without overlap other than at borders.", "quantifier": "every bounding box and paper size", "why_tests_cant": "real valued sizes and unbounded number of tiles", "anchors": ["Patro/GraphicEngine/Painter/Painter.py: Tiler"]}
{"id": "C51", "title": "A-series paper sizes are consistent", "statement": "Every A-series size has side ratio square root of two, each level halves the area and its long side is the short side of the previous level; landscape swaps the sides.", "quantifier": "every level", "why_tests_cant": "law over the reals", "anchors": ["Patro/GraphicEngine/Painter/Paper.py: PaperSize"]}
{"id": "C52", "title": "Typographic unit conversions are inverse", "statement": "Converting a length to another unit and back gives the same length, and the conversions agree with each other.", "quantifier": "every length and pair of units", "why_tests_cant": "law over the reals", "anchors": ["Patro/GraphicEngine/GraphicScene/TypographyUnit.py: MmUnit, InchUnit, PointUnit"]}
{"id": "C53", "title": "Yarn count conversions are inverse", "statement": "Converting a yarn count from tex to denier or metric number and back gives the same count.", "quantifier": "every positive count", "why_tests_cant": "law over the reals", "anchors": ["Patro/TextileTechnology/Yarn.py: tex2den, den2tex, tex2nm, nm2tex"]}
{"id": "C54", "title": "Colours survive conversion to text and back", "statement": "For every 24 bit colour, the text form of a colour built from it is the same colour and colours with equal components are equal.", "quantifier": "all 16 million colours under IEEE double arithmetic", "why_tests_cant": "exhaustive testing of floats per channel is a proof by computation", "anchors": ["Patro/GraphicStyle/Color/ColorDataBase.py: Color"]}
{"id": "C55", "title": "Cloned styles equal the original", "statement": "Cloning a graphic style gives a style with the same value for every attribute.", "quantifier": "every style", "why_tests_cant": "every attribute combination", "anchors": ["Patro/GraphicEngine/GraphicScene/GraphicStyle.py: GraphicPathStyle.clone, GraphicBezierStyle"]}
{"id": "C56", "title": "TeX output is balanced and ordered", "statement": "The text of a TeX environment is its begin line, its content in order and its matching end line, for any nesting; a document name with or without suffix names the same .tex file.", "quantifier": "every nesting and every name", "why_tests_cant": "unbounded nesting and names", "anchors": ["Patro/GraphicEngine/TeX/Buffer.py", "Patro/GraphicEngine/TeX/Environment.py", "Patro/GraphicEngine/TeX/Document.py"]}
{"id": "C57", "title": "The convex hull contains the points and turns left", "statement": "The convex hull of a point set only uses given points, makes only left turns and contains every point.", "quantifier": "every finite point set", "why_tests_cant": "unbounded point sets with degenerate collinear cases", "anchors": ["Patro/GeometryEngine/Polygon.py: Polygon2D.convex_hull, _sort_point_for_graham_scan, _ccw"]}
{"id": "C58", "title": "Triangle membership and area", "statement": "A triangle that can be built contains a point exactly when the point is a convex combination of its vertices, its area is half the base times the height, its perimeter is the sum of its sides, and three aligned points are refused.", "quantifier": "every triple of points and every query point", "why_tests_cant": "real valued coordinates, points on the edges and both orientations", "anchors": ["Patro/GeometryEngine/Triangle.py: Triangle2D, same_side"]}
{"id": "C59", "title": "Rectangles and bounding boxes", "statement": "A rectangle contains a point exactly when both coordinates lie between those of its corners, its perimeter and area are those of its four right-angled edges, and the bounding box of points is the smallest box containing all of them.", "quantifier": "every pair of corners, every non empty point list", "why_tests_cant": "unbounded point lists, corners given in any order", "anchors": ["Patro/GeometryEngine/Rectangle.py: Rectangle2D", "Patro/GeometryEngine/BoundingBox.py: bounding_box_from_points"]}
{"id": "C60", "title": "Flatness test and fat line of a Bezier curve are sound", "statement": "When is_flat_enough(f) holds the curve stays within f of its chord at the same parameter; fat_line returns the line through the end points with two signed distances between which the whole curve lies.", "quantifier": "every control polygon with distinct end points and every t in [0,1]", "why_tests_cant": "a bound on a whole continuous curve", "anchors": ["Patro/GeometryEngine/Bezier.py: CubicBezier2D.is_flat_enough, fat_line", "Patro/GeometryEngine/Bezier.py: QuadraticBezier2D.fat_line"]}
{"id": "C61", "title": "The length of a quadratic Bezier curve is its arc length", "statement": "QuadraticBezier2D.length is the integral of the speed over [0,1]; interpolated_length terminates for every positive step and is never shorter than the chord.", "quantifier": "every control polygon, every step", "why_tests_cant": "an integral identity with degenerate (aligned) control polygons", "anchors": ["Patro/GeometryEngine/Bezier.py: QuadraticBezier2D.length, BezierMixin2D.interpolated_length"]}
{"id": "C62", "title": "The length of a cubic Bezier curve is computed on consecutive pieces of it", "statement": "The adaptive approximation terminates and cuts the curve into consecutive pieces that cover it exactly; each piece is replaced by a quadratic curve meeting it at both ends and the middle; t_at_length finds the parameter at which a given length is reached.", "quantifier": "every control polygon, every length on the curve", "why_tests_cant": "termination and coverage for every curve", "anchors": ["Patro/GeometryEngine/Bezier.py: CubicBezier2D.adaptive_length_approximation, length, mid_point_quadratic_approximation", "Patro/GeometryEngine/Bezier.py: BezierMixin2D.t_at_length"]}
{"id": "C63", "title": "The area of a cubic Bezier curve", "statement": "CubicBezier2D.area is the signed area between the curve and its chord and does not depend on where the curve lies.", "quantifier": "every control polygon", "why_tests_cant": "an integral identity for every position of the curve", "anchors": ["Patro/GeometryEngine/Bezier.py: CubicBezier2D.area"]}
{"id": "C64", "title": "The closest point of a Bezier curve", "statement": "closest_point returns a point of the curve no other point of the curve is closer than.", "quantifier": "every control polygon and every query point", "why_tests_cant": "minimum over a continuous curve", "anchors": ["Patro/GeometryEngine/Bezier.py: QuadraticBezier2D.closest_point, CubicBezier2D.closest_point"]}
{"id": "C65", "title": "Intersection of a Bezier curve and a line", "statement": "intersect_line returns exactly the parameters at which the curve meets the line.", "quantifier": "every control polygon and every line", "why_tests_cant": "completeness over a continuous curve", "anchors": ["Patro/GeometryEngine/Bezier.py: QuadraticBezier2D.intersect_line, CubicBezier2D.intersect_line"]}
{"id": "C66", "title": "Conversions between cubic Bezier curves and uniform splines", "statement": "CubicBezier2D.to_spline gives the uniform spline tracing the same curve; a uniform cubic spline is the B-spline on its span; converting a uniform spline to a Bezier curve keeps the curve.", "quantifier": "every control polygon and every parameter", "why_tests_cant": "an identity for all points and parameters", "anchors": ["Patro/GeometryEngine/Bezier.py: CubicBezier2D.to_spline", "Patro/GeometryEngine/Spline.py: CubicUniformSpline2D, QuadraticUniformSpline2D"]}
{"id": "C67", "title": "Polygon answers do not depend on what was asked before", "statement": "The polygon made of a list of at least three points answers every question (simple, convex, area, barycenter, clockwise, principal axes, perimeter, point inside) with the same value whatever was asked before; the perimeter is the length of the closed outline; after an in place transformation the answers are those of the moved points.", "quantifier": "every polygon, every sequence of questions, every transformation", "why_tests_cant": "lazy caches: the number of call orders is unbounded", "anchors": ["Patro/GeometryEngine/Polygon.py: Polygon2D, edges, perimeter, area, barycenter, is_simple, is_convex", "Patro/GeometryEngine/Primitive.py: PrimitiveNP, apply_transformation"]}
{"id": "C68", "title": "The simple polygon test", "statement": "is_simple answers true exactly when no two edges meet except at a common vertex.", "quantifier": "every polygon with any number of vertices", "why_tests_cant": "unbounded number of edges, real coordinates", "anchors": ["Patro/GeometryEngine/Polygon.py: Polygon2D._test_is_simple, is_simple"]}
{"id": "C69", "title": "The convex polygon test", "statement": "is_convex answers true exactly for the simple polygons that always turn to the same side or go straight on; the answer does not depend on the direction of travel.", "quantifier": "every polygon with any number of vertices", "why_tests_cant": "unbounded number of vertices, real coordinates", "anchors": ["Patro/GeometryEngine/Polygon.py: Polygon2D._test_is_convex, is_convex"]}
{"id": "C70", "title": "Principal axes of a polygon", "statement": "The major axis angle is the direction in which the points spread most, the minor axis is perpendicular and has the smallest spread, the axis lengths are four times the root mean square spread, and moving the polygon does not change them.", "quantifier": "every polygon", "why_tests_cant": "extremum over all directions of the plane", "anchors": ["Patro/GeometryEngine/Polygon.py: Polygon2D._compute_inertia_moment, major_axis_angle, major_axis, minor_axis, axis_ratio"]}
{"id": "C71", "title": "Point in polygon", "statement": "is_point_inside tells whether a point is inside the polygon.", "quantifier": "every polygon and every point", "why_tests_cant": "unbounded polygons and points", "anchors": ["Patro/GeometryEngine/Polygon.py: Polygon2D.is_point_inside, _crossing_number_test"]}
{"id": "C72", "title": "Polygon simplification", "statement": "simplify keeps a subsequence of at least three vertices; with a negative threshold nothing is removed; with a zero threshold only vertices on the line between their neighbours are removed, so the area is kept.", "quantifier": "every polygon and threshold", "why_tests_cant": "unbounded polygons; the loop restarts from the last kept vertex and wraps around", "anchors": ["Patro/GeometryEngine/Polygon.py: Polygon2D.simplify"]}
{"id": "C73", "title": "Regular polygons", "statement": "The vertices of a regular polygon are at the given radius from the centre and each is the previous one turned by the n-th part of a full turn, the last one turning to the first; the names of the polygons can be read.", "quantifier": "every centre, radius, number of edges and start angle", "why_tests_cant": "unbounded number of edges, real angles", "anchors": ["Patro/GeometryEngine/Polygon.py: RegularPolygon"]}
{"id": "C74", "title": "Circles", "statement": "The point at an angle is at that polar angle on the circle and angle_for_point gives the angle back; the tangent is perpendicular to the radius; an arc built from a length has that length; the distance to a point is the smallest over the circle or the arc; is_point_inside, the bounding box, the perimeter and the common points of two circles are those of the geometric figure, and a transformation moves the figure.", "quantifier": "every circle, arc, angle and point", "why_tests_cant": "extrema over infinitely many points, tangent cases of measure zero", "anchors": ["Patro/GeometryEngine/Conic.py: Circle2D"]}
{"id": "C75", "title": "Ellipses", "statement": "The point at an angle has that eccentric angle on the ellipse, every point of the ellipse is reached, the frame conversions are inverse of each other, the line intersections are exactly the common points, the distance is the smallest over the ellipse, and the matrix, axes, bounding box, inside test and transformations are those of the geometric figure.", "quantifier": "every ellipse, angle, segment and point", "why_tests_cant": "extrema over infinitely many points; an iterative solver", "anchors": ["Patro/GeometryEngine/Conic.py: Ellipse2D"]}
{"id": "C76", "title": "Ellipses converted to Bezier curves", "statement": "to_bezier returns a chain of curves from the start to the stop point, each tangent to the ellipse at its ends, through the ellipse at its middle and nowhere more than 0.03 % away from it.", "quantifier": "every ellipse and angular domain", "why_tests_cant": "the error is bounded at every parameter of every piece", "anchors": ["Patro/GeometryEngine/Conic.py: Ellipse2D.to_bezier, _bezier_arc"]}
{"id": "C77", "title": "Arcs given by their end points", "statement": "svg_arc returns the arc of the SVG standard: from the first to the second point, in the direction of the sweep flag, on the side of the large arc flag, with the radii scaled up when they are too small.", "quantifier": "every pair of points, radii, rotation and flags", "why_tests_cant": "real parameters, four solutions to choose from", "anchors": ["Patro/GeometryEngine/Conic.py: Ellipse2D.svg_arc"]}
{"id": "C78", "title": "Rounded corners of paths", "statement": "A corner between two lines asked to be rounded gets an arc of the given radius which leaves the first line before the corner and joins the second one after it, tangent to both, drawn the short way round, whatever was read from the path before; rounded_rectangle and circle have their arcs at the four corners, and the four arcs of circle join on one circle.", "quantifier": "every sequence of commands and readings, every radius and directions", "why_tests_cant": "caches make the answer depend on the history; real directions", "anchors": ["Patro/GeometryEngine/Path.py: LinearSegment, Path2D.rounded_rectangle, Path2D.circle"]}
{"id": "C79", "title": "Copies of paths, polygons and polylines as paths", "statement": "clone returns a path with the same parts; to_path of a polygon or a polyline draws through its points.", "quantifier": "every path, polygon and polyline", "why_tests_cant": "unbounded lists of parts", "anchors": ["Patro/GeometryEngine/Path.py: Path2D.clone", "Patro/GeometryEngine/Polyline.py: to_path", "Patro/GeometryEngine/Primitive.py: PolygonMixin.to_path"]}
{"id": "C80", "title": "The value of a measurement does not depend on when it is read", "statement": "The value of a measurement is the evaluation of its expression with the measurements of the set, whenever it is read; reading it again gives the same value.", "quantifier": "every history of additions and readings, every expression language", "why_tests_cant": "the value is cached at the first reading; the order of additions and readings is unbounded", "anchors": ["Patro/Measurement/Measurement.py: Measurement.evaluated_expression, value, MeasurementSet.subs"]}
{"id": "C81", "title": "XML objects are made of their keywords", "statement": "An XML object made with keyword arguments has these attribute values, and the default values for the others.", "quantifier": "every attribute table and all keyword values", "why_tests_cant": "unbounded tables and values", "anchors": ["Patro/Common/Xml/Objectivity.py: XmlObjectAdaptator._init_from_kwargs"]}
{"id": "C82", "title": "XML classes inherit the attributes of their ancestors", "statement": "An XML class has its own attributes and the attributes of every class it inherits from, and its own attributes take precedence.", "quantifier": "every class hierarchy", "why_tests_cant": "unbounded hierarchies", "anchors": ["Patro/Common/Xml/Objectivity.py: XmlObjectAdaptatorMetaClass.register_from_super_class"]}
{"id": "C83", "title": "The text of an XML element is read", "statement": "Writing a text element and reading it back gives the same text.", "quantifier": "every text", "why_tests_cant": "unbounded texts", "anchors": ["Patro/Common/Xml/Objectivity.py: TextXmlObjectAdaptator"]}
{"id": "C84", "title": "A colour text is read as the colour it names or refused", "statement": "Making a colour from a hexadecimal text gives the colour that the text means in CSS, or raises ValueError.", "quantifier": "every text", "why_tests_cant": "unbounded texts: wrong lengths, signs, spaces and underscores between the digits", "anchors": ["Patro/GraphicStyle/Color/ColorDataBase.py: Color.__init__"]}
{"id": "C85", "title": "Names of colours", "statement": "The first definition of a name in the database of colours is kept; ensure_color is idempotent and accepts a colour, a name or a text; every name of every loaded set reads as the colour of its set.", "quantifier": "every history of definitions, every argument", "why_tests_cant": "unbounded histories; several sets of names overlap", "anchors": ["Patro/GraphicStyle/Color/ColorDataBase.py: ColorDataBase.add, ensure_color, Colors"]}
{"id": "C86", "title": "A yarn tells its counts", "statement": "A yarn can be made with or without a twist type and tells its weight for 9 km and its length for one gram.", "quantifier": "every linear density and twist type", "why_tests_cant": "all real densities", "anchors": ["Patro/TextileTechnology/Yarn.py: Yarn"]}
{"id": "C87", "title": "A graphic style is made of its keywords", "statement": "A path or Bezier style made with keyword arguments has the given values, read as stroke style, colour, number or flag, and the documented defaults for the other attributes; it is made exactly when every given value can be read.", "quantifier": "every set of keyword arguments and every database of colours", "why_tests_cant": "unbounded combinations of arguments", "anchors": ["Patro/GraphicEngine/GraphicScene/GraphicStyle.py: GraphicPathStyle.__init__, GraphicBezierStyle.__init__"]}
{"id": "C88", "title": "TikZ options of a style", "statement": "The TikZ options of a path style give its line width, its stroke style and its colour, for every style.", "quantifier": "every path style", "why_tests_cant": "all combinations of stroke styles and colours, with or without a name", "anchors": ["Patro/GraphicEngine/TeX/Tikz.py: TikzFigure.format_path_style"]}
{"id": "C89", "title": "TeX buffers are shared unless copied", "statement": "A buffer appended to another one shows its later changes, unless a deep copy is asked, in which case it shows the text it had; a buffer appended to itself has no text.", "quantifier": "every heap of buffers and every content", "why_tests_cant": "unbounded nesting and sharing", "anchors": ["Patro/GraphicEngine/TeX/Buffer.py: Buffer.append, __str__"]}
{"id": "C90", "title": "TeX templates", "statement": "Formatting a template replaces the fields between quotes by their values and keeps everything else, braces included.", "quantifier": "every template and all values", "why_tests_cant": "unbounded templates; values can contain braces", "anchors": ["Patro/GraphicEngine/TeX/Document.py: Document._format"]}
{"id": "C91", "title": "The files of a TeX document", "statement": "A document tells the directory it is written in and the name of its PDF file.", "quantifier": "every file name", "why_tests_cant": "unbounded names", "anchors": ["Patro/GraphicEngine/TeX/Document.py: Document.output_directory, pdf_filename"]}
{"id": "C92", "title": "User data and selection of a scene", "statement": "Looking up a user data in a scene gives exactly the items added with it, in order of addition; the selected items are exactly those marked as selected, and unselecting leaves none and changes nothing else.", "quantifier": "every history of a scene and every user data", "why_tests_cant": "unbounded histories of operations", "anchors": ["Patro/GraphicEngine/GraphicScene/Scene.py: add_item, item_for_user_data, selected_items, unselect_items"]}
{"id": "C93", "title": "Cast positions of an item", "statement": "The cast positions of an item are one vector for each of its positions, the image by the transformation of the scene of the vector or of the coordinate with this name.", "quantifier": "every item, transformation and dictionary of coordinates", "why_tests_cant": "all positions, names and transformations", "anchors": ["Patro/GraphicEngine/GraphicScene/Scene.py: cast_position", "Patro/GraphicEngine/GraphicScene/GraphicItemMixin.py: casted_positions, PositionMixin.positions"]}
{"id": "C94", "title": "Every painter paints every item", "statement": "Each painter can paint every scene made with the methods of the scene.", "quantifier": "every scene and every painter", "why_tests_cant": "unbounded scenes; the methods are looked up by name at run time", "anchors": ["Patro/GraphicEngine/Painter/Painter.py: Painter.__init_subclass__, paint", "Patro/GraphicEngine/Painter: SvgPainter, TexPainter, DxfPainter, PdfPainter, MplPainter, QtPainter"]}
{"id": "C95", "title": "Sagitta, radius and angle of a bulge", "statement": "The sagitta, the radius and the angle of a polyline vertex are those of the arc to the next vertex: the sagitta is the distance between the middles of the chord and of the arc, the radius the distance of the vertices to the centre, the angle 4 atan b.", "quantifier": "every polyline and every vertex with a bulge", "why_tests_cant": "all points and bulges; identities of real functions", "anchors": ["Patro/FileFormat/Dxf/Polyline.py: PolylineVertex.demi_chord, sagitta, sagitta_dual, bulge_radius, angle"]}
{"id": "C96", "title": "Neighbours of a polyline vertex", "statement": "The next and the previous vertex of a closed polyline are those of the cyclic order, and those of the order of addition for an open polyline, whose last vertex has no next and first no previous one.", "quantifier": "every polyline and every index", "why_tests_cant": "polylines of unbounded length", "anchors": ["Patro/FileFormat/Dxf/Polyline.py: PolylineVertex.prev, next, Polyline.add, is_last_index"]}
{"id": "C97", "title": "Ellipses read from DXF", "statement": "An ellipse of a DXF file is imported as the ellipse with the same points at the same parameters, whatever the direction of the major axis.", "quantifier": "all centres, major axes, ratios and parameters", "why_tests_cant": "all directions of the axis; identities of real functions", "anchors": ["Patro/FileFormat/Dxf/Importer.py: DxfImporter._on_ellipse"]}
{"id": "C98", "title": "Valentina sketches survive a write and read", "statement": "Writing the sketches of a pattern to a Valentina file and reading the file in a fresh process gives the same operations in the same order, with the same ids, names, references and formulas.", "quantifier": "every pattern, every number of operations and scopes", "why_tests_cant": "unbounded sketches; ids depend on the whole history of the process", "anchors": ["Patro/FileFormat/Valentina/Pattern.py: ValFileWriter._build_xml_tree, ValFileReaderInternal.read_piece", "Patro/Common/Object.py: ObjectGlobalIdMixin"]}
{"id": "C99", "title": "Primitives own their points", "statement": "A segment, rectangle, triangle, curve, polyline or polygon copies the points it is made of; it has no vector in common with another primitive, so that nothing done to another primitive, to a clone or to the vectors it was made of changes it.  A clone is a different object equal to the original.", "quantifier": "every history of constructions, clones, transformations, changes of points in place and setters", "why_tests_cant": "aliasing shows only in some histories; histories are unbounded", "anchors": ["Patro/GeometryEngine/Primitive.py: PointPrimitive.clone, transform, apply_transformation, __eq__, _set_points, setters of p0 to p3", "Patro/GeometryEngine/Vector.py: Vector2DBase.__init__"]}
{"id": "C100", "title": "Transforming a primitive transforms the figure", "statement": "transform, mirror, x_mirror, y_mirror, rotate and scale give the primitive whose figure is the image of the figure of the original, in place or in a clone which leaves the original unchanged.", "quantifier": "every primitive, every transformation", "why_tests_cant": "all points, factors and angles; point sets are infinite", "anchors": ["Patro/GeometryEngine/Primitive.py: PointPrimitive.transform, mirror, x_mirror, y_mirror, rotate, scale"]}
{"id": "C101", "title": "Reversing a primitive", "statement": "reverse returns a primitive with the same points in the opposite order.", "quantifier": "every primitive with at least two points", "why_tests_cant": "depends on the method resolution order of every class", "anchors": ["Patro/GeometryEngine/Primitive.py: PointPrimitive.reverse, ReversiblePrimitiveMixin.reverse"]}
{"id": "C102", "title": "The length of a polyline is that of its current points", "statement": "The length of a polyline is the sum of the distances of its consecutive points, whatever was done to it before.", "quantifier": "every polyline and every history", "why_tests_cant": "the edges are cached; histories are unbounded", "anchors": ["Patro/GeometryEngine/Polyline.py: Polyline2D.edges, length"]}
{"id": "C103", "title": "Scene and viewport coordinates are inverse of each other", "statement": "scene_to_viewport and viewport_to_scene are inverse of each other, scale every distance by the zoom and flip the ordinate; the conversions of lengths agree with them.", "quantifier": "every point, after every history of resizes, scenes, zooms by positive factors, fits and pans", "why_tests_cant": "the translation is a cache updated by some of the calls; histories and points are unbounded", "anchors": ["Patro/GraphicEngine/Painter/QtPainter.py: ViewportArea.scene_to_viewport, viewport_to_scene, length_scene_to_viewport, length_viewport_to_scene, _update_viewport_area"]}
{"id": "C104", "title": "The viewport area is what the window shows", "statement": "The centre of the viewport is drawn in the middle of the window and the points of the area are exactly those drawn within the window; a resize keeps the centre and the zoom.", "quantifier": "every history of resizes, scenes, zooms, fits and pans", "why_tests_cant": "the area is a cache; histories are unbounded", "anchors": ["Patro/GraphicEngine/Painter/QtPainter.py: ViewportArea.viewport_size, area, center, _update_viewport_area"]}
{"id": "C105", "title": "Fitting shows the whole scene", "statement": "fit_scene centres the viewport on the scene, shows the whole bounding box with a margin of 2 % and uses the greatest zoom which does.", "quantifier": "every scene, every window", "why_tests_cant": "all boxes and window sizes, including flat ones", "anchors": ["Patro/GraphicEngine/Painter/QtPainter.py: ViewportArea.fit_scene, _compute_scale_to_fit_scene"]}
{"id": "C106", "title": "Zooming and panning follow the mouse", "statement": "Zooming at a position of the window brings the point drawn there to the centre at the zoom asked for; panning by (dx, dy) moves every point drawn by -dx pixels along x and +dy pixels along y.", "quantifier": "every position, zoom and displacement, after every history", "why_tests_cant": "histories and positions are unbounded", "anchors": ["Patro/GraphicEngine/Painter/QtPainter.py: QtQuickPaintedSceneItem.zoom_at, pan, ViewportArea.zoom_at, pan_delta_to_scene"]}
{"id": "C107", "title": "The grid is drawn at the multiples of its step", "statement": "The grid has a line at each multiple of the step in the area, once, across the whole area, and none elsewhere; the step is the power of ten of the order of the smaller length of the area, at least 10, the small step a tenth of it.", "quantifier": "every area", "why_tests_cant": "all areas, including negative coordinates and lengths which are powers of ten", "anchors": ["Patro/GraphicEngine/Painter/QtPainter.py: QtPainter._paint_grid, _paint_axis_grid"]}
{"id": "C108", "title": "The SVG export draws the scene on the page", "statement": "SvgPainter draws every text, segment, circle and cubic curve of the scene as its image under the similarity of factor 10 which flips the ordinate and puts the upper left corner of the bounding box at the origin of the page.", "quantifier": "every scene, transformation, bounding box and item", "why_tests_cant": "all positions and bounding boxes", "anchors": ["Patro/GraphicEngine/Painter/SvgPainter.py: SvgPainter.__init__, cast_position, paint_TextItem, paint_CircleItem, paint_SegmentItem, paint_CubicBezierItem"]}
{"id": "C109", "title": "The DXF, PDF and matplotlib exports draw the image of the scene", "statement": "The DXF, PDF and matplotlib painters draw every text, segment, circle and cubic curve as its image under one similarity: of factor 10, of factor 0.7 cm with the lower left corner of the bounding box at 1 cm of the edges, and the identity.", "quantifier": "every scene, transformation, bounding box and item", "why_tests_cant": "all positions and bounding boxes; equality of curves is about infinitely many points", "anchors": ["Patro/GraphicEngine/Painter/DxfPainter.py: EzdxfPainter", "Patro/GraphicEngine/Painter/PdfPainter.py: ReportlabPainter, PdfPainter", "Patro/GraphicEngine/Painter/MplPainter.py: MplPainter"]}
{"id": "C110", "title": "The Qt painter draws the image of each item", "statement": "For every item the points drawn in the window are exactly the images by scene_to_viewport of the points of the item: arcs on the right side, ellipses with their angle, curves, closed and open paths, images.", "quantifier": "every item, scene transformation and viewport", "why_tests_cant": "point sets are infinite; the arcs of Qt turn the other way on a screen whose ordinates go down", "anchors": ["Patro/GraphicEngine/Painter/QtPainter.py: QtPainter.paint_*, _paint_arc, _paint_cubic, cast_position, to_svg", "Patro/GraphicEngine/GraphicScene/GraphicItem.py: QuadraticBezierItem.cubic_positions"]}
{"id": "C111", "title": "Arcs are drawn to a sixteenth of a degree", "statement": "Qt draws an arc which is not closed from its start angle anticlockwise to its stop angle, each within 1/16 degree, never more than one turn.", "quantifier": "all start and stop angles", "why_tests_cant": "angles are reals of any sign; truncation towards zero", "anchors": ["Patro/GraphicEngine/Painter/QtPainter.py: QtPainter._paint_arc"]}
{"id": "C112", "title": "A TikZ figure declares its coordinates and writes its positions", "statement": "The TeX painter declares every coordinate of the scene before the first item, then writes one line per item in order, whose positions are the names or the numbers of the scene within 0.005.", "quantifier": "every scene", "why_tests_cant": "all numbers, signs and carries of the decimal writing", "anchors": ["Patro/GraphicEngine/Painter/TexPainter.py: TexPainter.paint, paint_CoordinateItem, paint_TextItem, paint_SegmentItem, paint_CubicBezierItem, _format_position"]}
{"id": "C113", "title": "The pen of an item is the one of its style", "statement": "The Qt painter draws each item with the stroke colour, alpha, width, stroke, cap and join of its style, or no outline when there is no stroke colour, fills it with its fill colour, and draws selected items in red four times wider; it does not depend on the items painted before.", "quantifier": "every sequence of items", "why_tests_cant": "the pen is a state of the painter shared by all items", "anchors": ["Patro/GraphicEngine/Painter/QtPainter.py: QtPainter._set_pen"]}
{"id": "C114", "title": "Reading an SVG file gives its shapes", "statement": "SvgFileInternal reads the shapes of the document and of its groups in order, each as an object of its class with the values of its attributes, None for those which are missing.", "quantifier": "every document, every depth of groups", "why_tests_cant": "documents are trees of any size with any attributes and namespaces", "anchors": ["Patro/FileFormat/Svg/SvgFile.py: SvgDispatcher, SvgFileInternal", "Patro/FileFormat/Svg/SvgFormat.py", "Patro/Common/Xml/Objectivity.py: XmlObjectAdaptator"]}
{"id": "C115", "title": "SVG lengths keep their number and unit", "statement": "A length of an SVG attribute is read with its number and its unit, and writing it gives the same length; a number can be given as a keyword.", "quantifier": "every number, every unit of SVG", "why_tests_cant": "all numbers and units", "anchors": ["Patro/FileFormat/Svg/SvgFormat.py: PercentValue, UnitValue, PercentLengthAttribute"]}
{"id": "C116", "title": "The view box of an SVG file", "statement": "The view_box of a file is the box of its attribute viewBox: from the corner, with the width and the height.", "quantifier": "every viewBox which SVG allows", "why_tests_cant": "all corners and sizes, all separators", "anchors": ["Patro/FileFormat/Svg/SvgFile.py: SvgFileInternal.on_svg_root", "Patro/Common/Xml/Objectivity.py: FloatListAttribute"]}
{"id": "C117", "title": "SVG rectangles become closed paths", "statement": "The geometry of a rect is the closed path along its four sides, with its corners rounded by the radius given by rx or ry, x and y being 0 when missing.", "quantifier": "all positions, sizes and radii", "why_tests_cant": "real positions, sizes and radii", "anchors": ["Patro/FileFormat/Svg/SvgFormat.py: Rect.geometry"]}
{"id": "C118", "title": "The SVG file written has the size of the page", "statement": "SvgFileWriter writes a root with the size of the paper in millimetres and the view box of this size, and the elements in order, in a group with the transformation if there is one.", "quantifier": "all papers, lists of elements and transformations", "why_tests_cant": "all numbers and lists", "anchors": ["Patro/FileFormat/Svg/SvgFile.py: SvgFileWriter._new_root, _write"]}
{"id": "C119", "title": "An SVG file written is read back", "statement": "Reading a file written by SvgFileWriter gives the objects which were written, with the same values, and the size of the page.", "quantifier": "all lists of elements", "why_tests_cant": "all values of all attributes", "anchors": ["Patro/FileFormat/Svg/SvgFile.py: SvgFileWriter, SvgFileInternal", "Patro/Common/Xml/Objectivity.py: XmlObjectAdaptator.to_xml"]}
{"id": "C120", "title": "Drawing a primitive in a scene draws the primitive", "statement": "GraphicScene.add_geometry adds items whose points are exactly those of the primitive: Bezier curves, circles and their arcs, ellipses, polygons, polylines, rectangles, segments, splines, triangles.", "quantifier": "all primitives", "why_tests_cant": "real points, radii and angles", "anchors": ["Patro/GraphicEngine/GraphicScene/Scene.py: add_geometry, add_spline"]}
{"id": "C121", "title": "Drawing a path draws its outline", "statement": "GraphicScene.add_path draws the outline of the path: the straight parts up to the arcs which round the corners, these arcs, and the curves, and leaves the path as it was; as one item or as many.", "quantifier": "all paths, drawn by any sequence of commands and readings", "why_tests_cant": "all sequences of commands, real points and radii", "anchors": ["Patro/GraphicEngine/GraphicScene/Scene.py: add_path, add_as_path, add_as_path_segments", "Patro/GeometryEngine/Path.py: LinearSegment.points, bulge_geometry"]}
{"id": "C122", "title": "The geometry of an item is what it draws", "statement": "The geometry of a graphic item has the points which the item draws, and a primitive drawn in a scene is found again as the geometry of its item.", "quantifier": "all items and coordinates", "why_tests_cant": "real points, radii and angles", "anchors": ["Patro/GraphicEngine/GraphicScene/GraphicItem.py: get_geometry"]}
{"id": "C123", "title": "The drawing of a sketch shows each operation", "statement": "Sketch.detail_scene draws, in order, each point as a disc with its name at the label offset, each line, each spline and the line of each point built along, at the end or on the normal of a line, at their positions and with the line style, colour and width given, each item having its operation as user data.", "quantifier": "all evaluated sketches, styles and label offsets", "why_tests_cant": "all sequences of operations, real positions", "anchors": ["Patro/Pattern/Sketch.py: Sketch.detail_scene", "Patro/Pattern/SketchStyle.py: DetailSketchStyle"]}
{"id": "C124", "title": "The bounding box of a sketch holds its operations", "statement": "Sketch.bounding_box is the smallest box which holds all the points, lines and splines of the sketch, None when there are none, and the drawing of the sketch fits in it.", "quantifier": "all evaluated sketches", "why_tests_cant": "all sequences of operations, real positions", "anchors": ["Patro/Pattern/Sketch.py: Sketch.bounding_box", "Patro/Pattern/SketchOperation.py: geometry"]}
{"id": "C125", "title": "The Python code of an operation makes the operation again", "statement": "SketchOperation.to_python gives the text of a Python call of the class with all its arguments, which makes an operation with the same name, references, expressions, label offset and line properties.", "quantifier": "all classes of operations and all arguments", "why_tests_cant": "all names, expressions and numbers", "anchors": ["Patro/Pattern/SketchOperation.py: SketchOperation.to_python, _init_args", "Patro/Pattern/Calculator.py: Expression.is_float"]}
{"id": "C126", "title": "A triangular arrow head is the triangle asked for", "statement": "TriangularHead(p, direction, length, width, offset, left_side, right_side) is the triangle whose tip is p, whose axis is the direction, with the length and the half width given (half of it when only one side is asked for, moved along the axis by the offset); its points and its angle are those of this triangle, also after a transformation, and it depends on the direction only by its orientation.", "quantifier": "all points, directions, lengths, widths, offsets and sides", "why_tests_cant": "real coordinates and magnitudes", "anchors": ["Patro/GeometryEngine/Shape/ArrowHead.py: ArrowHead, TriangularHead"]}
{"id": "C127", "title": "A curvy arrow head is a closed symmetric outline", "statement": "CurvyHead is the closed outline from the tip by a curve to the left point, to the right point and by a curve back to the tip, symmetric with respect to its axis, with half of it when only one side is asked for.", "quantifier": "all points, directions, lengths, widths, depths, offsets and sides", "why_tests_cant": "real coordinates and magnitudes", "anchors": ["Patro/GeometryEngine/Shape/ArrowHead.py: CurvyHead"]}
{"id": "C128", "title": "The import of a DXF file gives one item for each entity, at its place", "statement": "DxfImporter gives, in order, one geometric item for each line, circle, arc, ellipse, polyline and spline of the model space, with the points of the entity as the DXF reference defines them, and ignores the other entities.", "quantifier": "all model spaces", "why_tests_cant": "all sequences of entities, real coordinates, bulges, knots and weights", "anchors": ["Patro/FileFormat/Dxf/Importer.py: DxfImporter"]}
{"id": "C129", "title": "A pattern file gives the pattern back", "statement": "Writing a pattern with ValFileWriter and reading the file with ValFileReader in a new process gives a pattern with the same unit, the same measurements, and the same scopes in the same order, with the same names, the same operations and, once evaluated, the same positions of the points and curves; a file without its required parts is refused.", "quantifier": "all patterns, with any number of scopes and operations, and all files", "why_tests_cant": "unbounded patterns and files; ids shared by the whole process", "anchors": ["Patro/FileFormat/Valentina/Pattern.py: ValFileReaderInternal, ValFileWriter", "Patro/Common/Xml/XmlFile.py: XmlFileMixin"]}
{"id": "C130", "title": "The details of a pattern file are read and kept", "statement": "Reading a pattern file accepts the modeling and the details of a piece exactly when their elements are of the format, their attributes are well written, and each node leads through an item of the modeling to an operation of the piece; the pattern keeps them.", "quantifier": "all pieces, all lists of items, details and nodes", "why_tests_cant": "unbounded lists of elements and all texts of the attributes", "anchors": ["Patro/FileFormat/Valentina/Pattern.py: Modeling, ModelingDispatcher, DetailDispatcher, ValFileReaderInternal.read_detail", "Patro/FileFormat/Valentina/VitFormat.py: ModelingPoint, ModelingSpline, Detail, DetailNode, DetailData, DetailPatternInfo, DetailGrainline"]}
{"id": "C131", "title": "Dates are understood exactly when they are written as dates", "statement": "ensure_date(text) returns the date written by the text when the text is a year of four digits, a month and a day of one or two digits (the tens of the day may be a space) separated by hyphens and naming a day of the Gregorian calendar, and raises ValueError for every other text; ensure_datetime does the same for a date, T, hours:minutes:seconds.fraction and Z, in either case; the text of a date is read back to the same date, and date objects are returned as they are.", "quantifier": "for all texts, all dates and all times", "why_tests_cant": "The set of texts is infinite and the matching backtracks; the calendar has exceptions (leap years of centuries) which examples miss.", "anchors": ["Patro/Common/Datetime.py:29-43"]}
{"id": "C132", "title": "Personal data hold what the keywords give", "statement": "PersonalData(**kwargs) holds the texts of the names, e-mail and comment, the dates and the gender which are given, with the documented defaults for the missing ones; it is made exactly when the dates are dates (objects or texts) and the gender is a Gender, its number or its name in any case.", "quantifier": "for all keyword arguments", "why_tests_cant": "Values of many types can be given for each of seven keywords in any combination.", "anchors": ["Patro/Measurement/PersonalData.py:30-144", "Patro/Common/Datetime.py:29-43"]}
{"id": "C133", "title": "Custom Valentina measurements are one object under both of their names", "statement": "ValentinaMeasurements accepts a sequence of additions exactly when the names, with @ written C_ and spaces written _, are made of letters, digits and underscores and are distinct, and the translated formulas are understood; a measurement is then found by its translated name and, when its name starts with @, by that name too, as the same object; names in formulas are translated like the registered ones, and the value read is the one of the formula whatever was read before.", "quantifier": "for all sequences of additions, names and formulas, and all sequences of readings", "why_tests_cant": "Clashes between translated names depend on the whole history; the dictionary is shared by two kinds of keys.", "anchors": ["Patro/Measurement/ValentinaMeasurement.py:38-98", "Patro/Measurement/Measurement.py:109-210"]}
{"id": "C134", "title": "A file of measurements is read exactly when it has its parts", "statement": "VitFile(path) succeeds exactly when the file has the elements version, unit, pm_system, personal (with customer, birth-date, gender, e-mail) and body-measurements, whose children are all acceptable elements m; the measurements and the personal data are then those of the file, the first element of each tag being the one which counts.", "quantifier": "for all XML trees and all sympify functions", "why_tests_cant": "Any element can be missing, repeated, empty or in another order; the measurements of a file interact by their names.", "anchors": ["Patro/FileFormat/Valentina/Measurement.py:58-132", "Patro/Measurement/ValentinaMeasurement.py:38-98", "Patro/Measurement/PersonalData.py:45-144"]}
{"id": "C135", "title": "The bisectors of a triangle bisect its angles", "statement": "The lines bisector_line0, bisector_line1 and bisector_line2 of a triangle pass through its vertices and make equal angles with the two sides which meet there.", "quantifier": "every triangle which can be built", "why_tests_cant": "real coordinates; the usual examples (equilateral or isosceles triangles) do not tell bisectors from medians", "anchors": ["Patro/GeometryEngine/Triangle.py: Triangle2D.bisector_vector0, bisector_line0"]}
{"id": "C136", "title": "The kind of a triangle is the one of its sides and angles", "statement": "perimeter is the sum of the sides; is_equilateral, is_scalene, is_isosceles tell whether three, none or two sides are equal; is_right, is_obtuse, is_acute tell whether an angle is right, an angle is obtuse, all are acute; is_oblique that no angle is right.", "quantifier": "every triangle which can be built", "why_tests_cant": "real coordinates, orders of the vertices and directions of the edges", "anchors": ["Patro/GeometryEngine/Triangle.py: Triangle2D._cache_length, _cache_angle, perimeter, is_equilateral, is_obtuse"]}
{"id": "C137", "title": "The part of a line in a box", "statement": "get_x_y_from_bounding_box returns two points of the line which are the ends of the part of the line inside the box; the distance between two abscissae is the length of the segment between their points.", "quantifier": "every line and box", "why_tests_cant": "slopes, positions of the line and shapes of the box are unbounded", "anchors": ["Patro/GeometryEngine/Line.py: Line2D.get_x_y_from_bounding_box, get_y_from_x, get_x_from_y, compute_distance"]}
{"id": "C138", "title": "Rounding and comparing with tolerance", "statement": "rint gives the nearest integer (the even one of two), ceil_int the least integer above, cmp the sign of the difference, trignometric_clamp the nearest number of [-1, 1]; almost_equal holds when the coordinates differ by less than the tolerances, is reflexive and symmetric.", "quantifier": "all real numbers and vectors", "why_tests_cant": "ties and ends of intervals among all real numbers; the relative tolerance is taken on one side only", "anchors": ["Patro/Common/Math/Functions.py: rint, ceil_int, cmp, trignometric_clamp", "Patro/GeometryEngine/Vector.py: almost_equal, rint"]}
{"id": "C139", "title": "Measurements saved in a YAML file are read back", "statement": "Saving a set of measurements in a YAML file and loading the file gives measurements of the same names, values, full names and descriptions, in the order of the names.", "quantifier": "every set of measurements reached by additions and readings", "why_tests_cant": "the sets of names, texts and expressions are unbounded, and the order and the emptiness of the texts decide what is written", "anchors": ["Patro/Measurement/Measurement.py:MeasurementSet.save_as_yaml", "Patro/Measurement/Measurement.py:MeasurementSet.load_yaml", "Patro/Measurement/Measurement.py:MeasurementSet.sorted_iter"]}
{"id": "C140", "title": "The table of standard measurements is complete", "statement": "The table holds exactly the measurements of the file, in order, each one found under its name with its code; a file with two entries of the same name is refused; the file which comes with the program is accepted and its names can be used in formulas.", "quantifier": "every YAML value of a file", "why_tests_cant": "the files are unbounded and the faults are in their shapes", "anchors": ["Patro/Measurement/StandardMeasurement.py:StandardMeasurement", "Patro/Measurement/ValentinaStandardMeasurement.py:ValentinaStandardMeasurement.__init__"]}
{"id": "C141", "title": "The database of fibres holds the fibres of the file", "statement": "After loading, the database holds the fibres of the file with their types and sources; the first of each name is kept; loading again changes nothing; a file which is refused changes nothing; the file which comes with the program is accepted.", "quantifier": "every YAML value of a file and every database made by additions", "why_tests_cant": "the files and the histories are unbounded", "anchors": ["Patro/TextileTechnology/Database.py:Database", "Patro/TextileTechnology/Fiber.py:FiberDatabase.load"]}
{"id": "C142", "title": "The database of stitches holds the stitches of the file", "statement": "After loading, the database holds the stitch types of the file; a number which is not known can be left out.", "quantifier": "every YAML value of a file", "why_tests_cant": "the files are unbounded", "anchors": ["Patro/TextileTechnology/StitchType.py:StitchDatabase.load", "Patro/TextileTechnology/StitchType.py:StitchType.__init__"]}
{"id": "C143", "title": "Fabrics, seams and machines can be described", "statement": "A fabric can be made from its properties, a seam tells its name, and a sewing machine can be made from what is known of it.", "quantifier": "every set of keyword arguments", "why_tests_cant": "the sets of arguments are unbounded", "anchors": ["Patro/TextileTechnology/Fabric.py:Fabric.__init__", "Patro/TextileTechnology/Seam.py:AstmSeam.name", "Patro/TextileTechnology/SewingMachine.py:SewingMachine.__init__"]}
{"id": "C144", "title": "The bounding box of a path", "statement": "The bounding box of a path holds every point of its lines, curves, arcs and rounded corners, and is the least box which does; a path without parts has none.", "quantifier": "every path drawn with the commands of Path2D, whatever was read of it before", "why_tests_cant": "histories of drawing are unbounded, and the points of the pieces are infinitely many", "anchors": ["Patro/GeometryEngine/Path.py:Path2D.bounding_box", "Patro/GeometryEngine/Path.py:PathPart.bounding_box"]}
{"id": "C145", "title": "Homogeneous vectors stand for points", "statement": "A homogeneous vector (x, y, w) stands for the point (x/w, y/w): its image by an affine transformation stands for the image of the point, images compose as transformations do, to_vector gives the point, and copies and sums keep the weight; from_list makes the vectors of the pairs in order.", "quantifier": "every vector, weight and transformation", "why_tests_cant": "real coordinates and weights", "anchors": ["Patro/GeometryEngine/Vector.py:HomogeneousVector2D", "Patro/GeometryEngine/Vector.py:Vector2D.from_list", "Patro/GeometryEngine/Transformation.py:AffineTransformation2D.__mul__"]}
{"id": "C146", "title": "Normalised vectors have length one", "statement": "to_normalised gives the vector of length one of the same direction, of class NormalisedVector2D; every vector of this class has length one and can be used as a vector.", "quantifier": "every vector", "why_tests_cant": "real coordinates", "anchors": ["Patro/GeometryEngine/Vector.py:NormalisedVector2D", "Patro/GeometryEngine/Vector.py:Vector2D.to_normalised"]}
{"id": "C147", "title": "Copies of transformations", "statement": "A transformation built from another one, or from the list of its coefficients, is the same map of the plane; what is no transformation of the same dimension is refused.", "quantifier": "every transformation, list of numbers and type", "why_tests_cant": "real coefficients, lists of any length", "anchors": ["Patro/GeometryEngine/Transformation.py:Transformation.__init__", "Patro/GeometryEngine/Transformation.py:Transformation2D._check_type"]}
{"id": "C148", "title": "A file is found in the directories", "statement": "find returns the path of a file of the given name under the first of the directories which holds one, at any depth, the directory itself first; it raises NameError exactly when there is none; one directory can be given instead of a list.", "quantifier": "every tree of files, every list of directories", "why_tests_cant": "trees are unbounded in depth and width, and the order of the search decides", "anchors": ["Patro/Common/Path.py:find"]}
{"id": "C149", "title": "Absolute paths and parents", "statement": "to_absolute_path gives a path which leads where the given one leads, without dots, repeated or final slashes, which is its own absolute path and is the same for all the paths of a place; parent_directory_of goes up as many directories as asked.", "quantifier": "every path, working directory, home directory and tree of files", "why_tests_cant": "paths are unbounded texts", "anchors": ["Patro/Common/Path.py:to_absolute_path", "Patro/Common/Path.py:parent_directory_of"]}
{"id": "C150", "title": "The description of the platform", "statement": "The platform tells the name and the number of the processors, their frequency and the size of the memory, on each system which is supported.", "quantifier": "every contents of the files of the system", "why_tests_cant": "the files differ among machines and are unbounded", "anchors": ["Patro/Common/Platform.py:Platform.__init__", "Patro/Common/Platform.py:Platform._get_number_of_cores", "Patro/Common/Platform.py:Platform._get_memory_size_kb"]}
{"id": "C151", "title": "The configuration of the messages", "statement": "setup_logging takes the file of the configuration directory, chooses the formatter of the system, replaces each <ESC> of its format by the escape character, changes nothing else, and sets the level which the environment names.", "quantifier": "every configuration, system and environment", "why_tests_cant": "configurations and environments are unbounded", "anchors": ["Patro/Common/Logging/Logging.py:setup_logging", "Patro/Config/ConfigInstall.py:OsFactory", "Patro/Config/ConfigInstall.py:Logging.find"]}
{"id": "C152", "title": "The sketches of the geometry engine", "statement": "The module GeometryEngine.Sketch can be imported; Sketch.point, middle, line, hline, vline and segment make the primitive asked for, with its sketch, name and description; Distance is the distance of two points.", "quantifier": "every point, vector and keyword argument", "why_tests_cant": "the keyword arguments are unbounded, and the module has no test", "anchors": ["Patro/GeometryEngine/Sketch.py:Distance", "Patro/GeometryEngine/Sketch.py:SketchPoint.__init__", "Patro/GeometryEngine/Sketch.py:SketchLine.__init__", "Patro/GeometryEngine/Sketch.py:Sketch.point"]}
{"id": "C153", "title": "The Qt binding of the application", "statement": "Importing QtShim takes the first binding of the order of preference which is known and installed, and fails when there is none; every name of its tables can be imported from the module of the package when the binding has it, and is then the object of the binding; properties, signals and slots have the same names with both bindings; no other name can be imported.", "quantifier": "every environment, every set of installed bindings, every content of their modules", "why_tests_cant": "the content of the bindings depends on their versions and is not known to the tests", "anchors": ["QtShim/__init__.py:_install", "QtShim/__init__.py:_setup", "QtShim/__init__.py:_reassign_misplaced_members", "QtShim/QtConfig.py"]}
{"id": "C154", "title": "The description of the package", "statement": "merge_include replaces each line which includes a file by the text of the file, in which includes are replaced as well; each file is merged once, at its first include; it ends when files include each other and fails exactly when a file which is reached is missing.", "quantifier": "every source and every finite set of files", "why_tests_cant": "the graphs of includes are unbounded and may have cycles", "anchors": ["setup_data.py:merge_include"]}
{"id": "C155", "title": "The version of a release", "statement": "update_git_sha takes the version from the tag, changes only the lines of the version, the tag and the commit of the file, keeps the others in order, and changes nothing when done twice; a tag which is no version is refused before the file is written.", "quantifier": "every tag, commit and file", "why_tests_cant": "files and tags are unbounded texts", "anchors": ["tasks/release.py:update_git_sha"]}
{"id": "C156", "title": "The application", "statement": "One application is made at most, whatever the calls; the scene signals its changes, each one once; a message of Qt goes to one place; a user script is run once with the application as its only name, and its failures are printed; paths of options are stored under their names.", "quantifier": "every history of calls, assignments and messages, every script", "why_tests_cant": "histories and scripts are unbounded", "anchors": ["Patro/QtApplication/QmlApplication.py:Application.create", "Patro/QtApplication/QmlApplication.py:QmlApplication.scene", "Patro/QtApplication/QmlApplication.py:Application._message_handler", "Patro/QtApplication/QmlApplication.py:Application.execute_user_script", "Patro/Common/ArgparseAction.py:PathAction.__call__"]}
{"id": "C157", "title": "Recentering a polygon", "statement": "recenter moves the polygon so that its barycenter is the origin: every point moves by the same vector, and the polygon then answers the origin as its barycenter.", "quantifier": "every list of points, every sequence of questions before the call", "why_tests_cant": "the points are unbounded, and the effect depends on what was asked before", "anchors": ["Patro/GeometryEngine/Polygon.py:Polygon2D.recenter"]}
{"id": "C158", "title": "Parallel and perpendicular lines at a point", "statement": "parallel_line_at and orthogonal_line_at give the line through the point which is parallel or perpendicular to the line; orthogonal_line_at_abscissa the perpendicular at the point of the abscissa; a line and its perpendicular at a point cross at the nearest point of the line.", "quantifier": "every line, point and abscissa", "why_tests_cant": "lines and points are real; the test of parallelism has a tolerance", "anchors": ["Patro/GeometryEngine/Line.py:Line2D.parallel_line_at", "Patro/GeometryEngine/Line.py:Line2D.orthogonal_line_at", "Patro/GeometryEngine/Line.py:Line2D.orthogonal_line_at_abscissa", "Patro/GeometryEngine/Line.py:Line2D.intersection"]}
{"id": "C159", "title": "Reflections, the screen and matrices given by numbers", "statement": "Parity, XReflection and YReflection negate both coordinates, the abscissa and the ordinate; Screen counts the ordinate from the other side and is its own inverse; a list of nine numbers is the matrix by rows, and any other number of them is refused.", "quantifier": "every vector, height and list of numbers", "why_tests_cant": "coordinates and lists are unbounded", "anchors": ["Patro/GeometryEngine/Transformation.py:Transformation2D.Parity", "Patro/GeometryEngine/Transformation.py:Transformation2D.XReflection", "Patro/GeometryEngine/Transformation.py:Transformation2D.YReflection", "Patro/GeometryEngine/Transformation.py:AffineTransformation2D.Screen", "Patro/GeometryEngine/Transformation.py:Transformation.__init__"]}
{"id": "C160", "title": "Vectors in double precision", "statement": "With the numbers of the machine, sums and differences of vectors are the exact ones rounded to nearest and do not depend on the order of the operands; a vector minus itself is null; quarter turns and opposites are exact; the cross product changes sign when the vectors are exchanged and is null for a vector and itself; the distance of two points is the same both ways; adding a vector and taking it away gives back the first.", "quantifier": "every vector of double precision numbers", "why_tests_cant": "there are 2^128 vectors, and roundings, overflows and signed zeros decide", "anchors": ["Patro/GeometryEngine/Vector.py:Vector2DBase.__add__", "Patro/GeometryEngine/Vector.py:Vector2DBase.__sub__", "Patro/GeometryEngine/Vector.py:Vector2DFloatBase.normal", "Patro/GeometryEngine/Vector.py:Vector2DFloatBase.cross", "Patro/GeometryEngine/Vector.py:Vector2DFloatBase.magnitude"]}
{"id": "C161", "title": "The ends of segments and curves in double precision", "statement": "With the numbers of the machine, point_at_t(0) is exactly the first point and point_at_t(1) exactly the last one, for segments, lines through two points, quadratic and cubic curves; a segment whose ends are equal stays at its point.", "quantifier": "every points of double precision numbers", "why_tests_cant": "roundings depend on all the bits of the coordinates", "anchors": ["Patro/GeometryEngine/Interpolation.py:interpolate_two_points", "Patro/GeometryEngine/Line.py:Line2D.interpolate", "Patro/GeometryEngine/Bezier.py:QuadraticBezier2D.point_at_t", "Patro/GeometryEngine/Bezier.py:CubicBezier2D.point_at_t"]}
{"id": "C162", "title": "The middle in double precision", "statement": "With the numbers of the machine, the middle of two points is the same from both sides and lies between them; the middle of a point and itself is the point; Vector2D.middle and Segment2D.center agree.", "quantifier": "every points of double precision numbers", "why_tests_cant": "roundings and overflows depend on all the bits of the coordinates", "anchors": ["Patro/GeometryEngine/Vector.py:Vector2D.middle", "Patro/GeometryEngine/Segment.py:Segment2D.center"]}
{"id": "C163", "title": "Transformations in double precision", "statement": "With the numbers of the machine, the identity keeps points exactly; a translation gives the sum, a scale the products and the screen the difference to the height, each rounded once; a translation and the opposite one give back the point, and so does the screen twice.", "quantifier": "every point, vector, factor and height in double precision", "why_tests_cant": "roundings depend on all the bits of the coordinates", "anchors": ["Patro/GeometryEngine/Transformation.py:AffineTransformation2D.__mul__", "Patro/GeometryEngine/Transformation.py:AffineTransformation2D.Screen", "Patro/GeometryEngine/Transformation.py:AffineTransformation.Translation"]}
{"id": "C164", "title": "Drawings on a grid in double precision", "statement": "For coordinates which are multiples of a power of two with at most 25 to 50 binary digits (millimetres, eighths of an inch), the numbers of the machine commit no error: sums, differences, middles, cross products, images by matrices of integers, points of segments, lines and curves at the parameters k/64 are exact, lengths are rounded once; a curve split at such a parameter gives two parts which end at the point of the curve and are drawn on it.", "quantifier": "every grid of step 2^e, every points of the grid, every parameter k/64", "why_tests_cant": "there are far more such points than tests can try; that no rounding happens anywhere in a formula cannot be seen from results", "anchors": ["Patro/GeometryEngine/Vector.py:Vector2DBase.__add__", "Patro/GeometryEngine/Vector.py:Vector2DFloatBase.magnitude", "Patro/GeometryEngine/Bezier.py:QuadraticBezier2D.point_at_t", "Patro/GeometryEngine/Bezier.py:CubicBezier2D.point_at_t", "Patro/GeometryEngine/Bezier.py:QuadraticBezier2D.split_at_t", "Patro/GeometryEngine/Bezier.py:CubicBezier2D.split_at_t", "Patro/GeometryEngine/Transformation.py:AffineTransformation2D.__mul__"]}
{"id": "C165", "title": "Decisions of the geometry engine in double precision", "statement": "With the numbers of the machine, left_of, right_of, is_collinear, the turns of the convex hull, triangle_orientation, intersect_with, same_side and is_point_inside of a triangle answer what exact arithmetic answers; the ends of a segment are on its line; a point is never said to be on the wrong side.", "quantifier": "every points of double precision numbers", "why_tests_cant": "a rounding decides the answer for points near the line; there are 2^384 triples of points", "anchors": ["Patro/GeometryEngine/Segment.py:Segment2D.side_of", "Patro/GeometryEngine/Segment.py:Segment2D.is_collinear", "Patro/GeometryEngine/Segment.py:Segment2D.intersect_with", "Patro/GeometryEngine/Triangle.py:triangle_orientation", "Patro/GeometryEngine/Triangle.py:same_side", "Patro/GeometryEngine/Triangle.py:Triangle2D.is_point_inside", "Patro/GeometryEngine/Polygon.py:ccw"]}
{"id": "C166", "title": "The accuracy of double precision", "statement": "With the numbers of the machine, a length is computed with a relative error of at most 3/2^53, however the squares are summed; a cross product with an error of at most 3/2^53 of the sum of the products; the point of a segment at a parameter between 0 and 1 with an error of at most 4/2^53 of the larger coordinate; the side of a point is right when the determinant exceeds its error.", "quantifier": "every points of double precision numbers, every parameter", "why_tests_cant": "bounds of errors for all numbers cannot be tested; underflow and overflow are rare", "anchors": ["Patro/GeometryEngine/Vector.py:Vector2DFloatBase.magnitude", "Patro/GeometryEngine/Vector.py:Vector2DFloatBase.cross", "Patro/GeometryEngine/Interpolation.py:interpolate_two_points", "Patro/GeometryEngine/Segment.py:Segment2D.side_of"]}
{"id": "C167", "title": "Means and areas of polygons in double precision", "statement": "With the numbers of the machine, the mean of the points of a polygon (point_barycenter) is the exact one rounded, and lies in every box which contains the points; the area does not depend on the order in which numpy adds, and is exact for coordinates on a grid.", "quantifier": "every list of points in double precision, every order of the sum", "why_tests_cant": "the number of points is unbounded and numpy chooses the order", "anchors": ["Patro/GeometryEngine/Polygon.py:Polygon2D.point_barycenter", "Patro/GeometryEngine/Polygon.py:Polygon2D._compute_area_barycenter"]}
{"id": "C168", "title": "Sheets of paper in double precision", "statement": "With the numbers of the machine, PaperSize accepts the same names and orientations and gives the sides, in millimetres, in inches and in points for a PDF file, right to one part in 10^14, provided pow is right to one unit in the last place; a longer length is never a shorter one in points; the width of a sheet is the height of the next one, and inches are a whole number of points.", "quantifier": "every name, orientation, level and every such pow; every pair of lengths", "why_tests_cant": "pow depends on the C library of the machine; monotonicity is about all pairs of numbers", "anchors": ["Patro/GraphicEngine/Painter/Paper.py:PaperSize.__init__", "Patro/GraphicEngine/Painter/PdfPainter.py:PdfPainterBase.mm_to_pt", "Patro/GraphicEngine/Painter/PdfPainter.py:PdfPainterBase.page_size"]}
{"id": "C169", "title": "The accuracy of curves in double precision", "statement": "With the numbers of the machine, for coordinates bounded by a size, the point of a quadratic curve at a parameter between 0 and 1 is right to 24/2^53 of the size, that of a cubic curve to 300/2^53, that of a line to 8/2^53, that of a segment to 3.1/2^53; the control points given by split_at_t are right to 7/2^53 and 10/2^53; a curve stays in the box of its control points.", "quantifier": "every size, every control points in double precision, every parameter between 0 and 1, every power function right to four units of rounding", "why_tests_cant": "bounds of errors for all numbers cannot be tested; pow depends on the C library", "anchors": ["Patro/GeometryEngine/Bezier.py:QuadraticBezier2D.point_at_t", "Patro/GeometryEngine/Bezier.py:CubicBezier2D.point_at_t", "Patro/GeometryEngine/Bezier.py:QuadraticBezier2D.split_at_t", "Patro/GeometryEngine/Bezier.py:CubicBezier2D.split_at_t", "Patro/GeometryEngine/Line.py:Line2D.interpolate"]}
{"id": "C170", "title": "The accuracy of areas and perimeters in double precision", "statement": "With the numbers of the machine, for n points with coordinates bounded by s, the signed area of a polygon is right to 4 n^2 s^2 / 2^53 however numpy orders the sum, so the sense of the points is right when the area exceeds this; the area of a triangle is right to 21 s^2 / 2^53; the perimeter is right to (2 n + 5) / 2^53 of itself for every summation which is right to one unit for each term, such as the sum from left to right; the sense of the points is always right.", "quantifier": "every polygon of at most 2^40 points in double precision, every order of the sum", "why_tests_cant": "bounds of errors for all numbers and all orders cannot be tested", "anchors": ["Patro/GeometryEngine/Polygon.py:Polygon2D._compute_area_barycenter", "Patro/GeometryEngine/Polygon.py:Polygon2D.perimeter", "Patro/GeometryEngine/Triangle.py:Triangle2D.area"]}
{"id": "C171", "title": "The accuracy of rotations in double precision", "statement": "With the numbers of the machine, for an angle of at most one turn, coordinates bounded by s and functions cos and sin right to two units of rounding, the image of a vector by rotate is right to 35 s / 2^53 in both senses, that by the matrix of Rotation to 38 s / 2^53, and the length of the vector is kept to 53 s / 2^53; the vectors of from_angle, from_polar and from_ellipse are right to 15, 17 and 17 units; radians are right to two units of rounding for every angle; a quarter of a turn is exact.", "quantifier": "every vector and angle in double precision, every such cos and sin", "why_tests_cant": "the functions depend on the C library; bounds of errors for all numbers cannot be tested", "anchors": ["Patro/GeometryEngine/Vector.py:Vector2DFloatBase.rotate", "Patro/GeometryEngine/Vector.py:Vector2D.from_angle", "Patro/GeometryEngine/Vector.py:Vector2D.from_polar", "Patro/GeometryEngine/Vector.py:Vector2D.from_ellipse", "Patro/GeometryEngine/Transformation.py:Transformation2D.Rotation"]}
{"id": "C172", "title": "The accuracy of directions in double precision", "statement": "With the numbers of the machine, for vectors which are not null, cos_with and sin_with lie between -1 and 1 and are right to 12/2^53; projection_on, deviation_with and distance_to_line are right to 8/2^53 of the length of the vector; the coordinates of a unit vector are right to 5/2^53 and its length to 8/2^53; angle_with is right to 6/10^6 degrees, and its sign is right when the cross product exceeds 3/2^53 of its terms, whatever the arc cosine which is right to the last place; the angle of a vector with itself is null.", "quantifier": "every pair of vectors with ordinary coordinates (null or between 2^-500 and 2^500), every accurate acos, every dot product rounded once or twice", "why_tests_cant": "bounds of errors for all numbers cannot be tested; acos depends on the C library and amplifies errors near one", "anchors": ["Patro/GeometryEngine/Vector.py:Vector2DFloatBase.cos_with", "Patro/GeometryEngine/Vector.py:Vector2DFloatBase.sin_with", "Patro/GeometryEngine/Vector.py:Vector2DFloatBase.projection_on", "Patro/GeometryEngine/Vector.py:Vector2DFloatBase.deviation_with", "Patro/GeometryEngine/Vector.py:Vector2DFloatBase.angle_with", "Patro/GeometryEngine/Vector.py:Vector2D.to_normalised", "Patro/GeometryEngine/Line.py:Line2D.distance_to_line"]}
{"id": "C173", "title": "The accuracy of intersections in double precision", "statement": "With the numbers of the machine, two lines whose points and vectors have coordinates bounded by s and whose cross product C of the vectors is such that s^2 <= k |C| and |C| >= 10^-7 have an intersection, the abscissae a are right to (13 k + 7 k |a|) / 2^53 and the point is right to (17 k + 10 k |a|) s / 2^53, 27 k s / 2^53 when it lies on the segment of the first line; for any segments with coordinates bounded by s and 4 s^2 <= k |C|, those which cross away from their ends, at parameters more than 25 k / 2^53 from 0 and 1, are found to cross at a point right to 54 k s / 2^53, and those whose lines meet more than 36 k / 2^53 beyond an end are found not to; the intersection does not depend on the order of the lines, and lines which are not parallel have one.", "quantifier": "every pair of lines in double precision, every measure k at most 2^30 of how far they are from parallel", "why_tests_cant": "bounds of errors for all numbers cannot be tested; they degrade as the lines become parallel", "anchors": ["Patro/GeometryEngine/Line.py:Line2D.intersection_abscissae", "Patro/GeometryEngine/Line.py:Line2D.intersection", "Patro/GeometryEngine/Segment.py:Segment2D.intersection", "Patro/GeometryEngine/Vector.py:Vector2DFloatBase.is_parallel"]}
{"id": "C174", "title": "The distance of a point to a segment in double precision", "statement": "With the numbers of the machine, Segment2D.distance_to_point is the least distance of the point to a place of the segment, right to (16 a + 6 b) / 2^53 where a is the distance of the point to the first end and b the length of the segment, even where the abscissa is near an end and the wrong case is chosen, and for segments of null length; the distance of a point of the segment given by interpolate is null.", "quantifier": "every segment and point in double precision whose differences of coordinates are numbers of the machine, null or between 2^-500 and 2^500, every dot product rounded once or twice", "why_tests_cant": "the choice between three cases depends on rounded numbers; bounds of errors for all numbers cannot be tested", "anchors": ["Patro/GeometryEngine/Segment.py:Segment2D.distance_to_point", "Patro/GeometryEngine/Line.py:Line2D.distance_and_abscissa_to_line"]}
{"id": "C175", "title": "The drift of repeated rotations in double precision", "statement": "With the numbers of the machine, a vector of length at most s which is rotated n times by angles of at most one turn, in either sense, is the vector rotated by the exact sum of the angles, right to 51 n s / 2^53 in each coordinate; its length drifts by at most 51 n s / 2^53; rotations whose angles add up to whole turns bring it back, up to this error.", "quantifier": "every vector, every list of at most 2^40 angles and senses, every cos and sin right to two units of rounding", "why_tests_cant": "the number of rotations is unbounded and errors accumulate; the functions depend on the C library", "anchors": ["Patro/GeometryEngine/Vector.py:Vector2DFloatBase.rotate"]}
{"id": "C176", "title": "The drift of paths of relative moves in double precision", "statement": "With the numbers of the machine, the stop point of a path which stays in a drawing of size s is right to s / 2^53 times 1.1 for each relative segment and 19 for each directional one (north_to, south_east_to...); absolute segments add no error and a segment to an absolute point ends the drift; a path of relative and absolute moves on a grid does not drift at all; a path of relative moves whose sum is null comes back to its start.", "quantifier": "every start, every list of at most 2^40 segments of every kind, every cos and sin right to two units of rounding", "why_tests_cant": "the number of segments is unbounded and errors accumulate", "anchors": ["Patro/GeometryEngine/Path.py:PathPart.start_point", "Patro/GeometryEngine/Path.py:PathPart.to_absolute_point", "Patro/GeometryEngine/Path.py:DirectionalSegment.stop_point", "Patro/GeometryEngine/Path.py:AbsoluteHorizontalSegment.stop_point", "Patro/GeometryEngine/Path.py:AbsoluteVerticalSegment.stop_point"]}
{"id": "C177", "title": "The accuracy of transformations in double precision", "statement": "With the numbers of the machine, for transformations whose coefficients are at most one and whose translations, like the coordinates of the point, are at most s, the image of a point is right to 7.3 s / 2^53, the image by the product of two transformations to 36 s / 2^53, and the image of the image to 35 s / 2^53; for whole coefficients of at most 1024 and points and translations on a grid, both are exact; the product acts as its factors one after the other.", "quantifier": "every pair of such affine transformations and every point in double precision", "why_tests_cant": "bounds of errors for all numbers cannot be tested", "anchors": ["Patro/GeometryEngine/Transformation.py:AffineTransformation.__mul__", "Patro/GeometryEngine/Transformation.py:Transformation.__mul__"]}
