{"id": "C01", "title": "find_span terminates on the curve domain and returns a usable index", "statement": "For a non-decreasing knot vector of length num_ctrlpts+degree+1 and a parameter u between knot_vector[degree] and knot_vector[num_ctrlpts], find_span returns (no exception, no infinite loop) an index s with degree <= s <= num_ctrlpts-1, so that the degree+1 control points s-degree..s all exist.", "quantifier": "every degree, control point count, non-decreasing knot vector, and parameter in the domain", "why_tests_cant": "the binary search is a while loop whose termination and index bounds depend on the shape of the knot vector; tests try one vector of eleven knots", "anchors": ["spline/algorithms/knots.py:find_span"]}
{"id": "C02", "title": "find_span returns a span that contains the parameter", "statement": "Under the conditions of C01, the returned span s satisfies knot_vector[s] <= u <= knot_vector[s+1], except that parameters within the documented closeness tolerance of knot_vector[num_ctrlpts] are sent to span num_ctrlpts-1.", "quantifier": "every degree, knot vector, parameter", "why_tests_cant": "needs all search paths of the bisection", "anchors": ["spline/algorithms/knots.py:find_span"]}
{"id": "C03", "title": "find_span picks a non-empty half-open span unless the parameter is an interior knot", "statement": "If u (in the domain, farther from the end knot than the end tolerance) is not equal to any interior knot, find_span returns the unique half-open span knot_vector[s] <= u < knot_vector[s+1]. At an interior knot this fails: the search accepts a span whose right end equals u, and may return a span of zero length for a knot vector accepted by check_knot_vector, although evaluation divides by that length.", "quantifier": "every knot vector and parameter; plus an explicit failing input", "why_tests_cant": "the boundary cases depend on where the bisection happens to probe", "anchors": ["spline/algorithms/knots.py:find_span"]}
{"id": "C04", "title": "find_span never returns for parameters outside the knot range", "statement": "For a non-decreasing knot vector and u below knot_vector[degree] by more than the end tolerance reaches, find_span loops forever (it neither returns nor raises); the same for u above knot_vector[num_ctrlpts] by more than the tolerance if the vector is clamped and degree >= 1. Above the domain of an unclamped vector with exactly one span it may return num_ctrlpts, and with degree 0 and one control point it raises IndexError. For infinite u it loops forever as well (degree >= 1), and for NaN it returns the first index probed, half of degree + num_ctrlpts rounded up, whatever the knots. Because the public evaluators only check 0 <= u <= 1 and knot vectors are stored un-normalised, a curve with a legal knot vector such as [2,2,3,3] hangs on single_point(0.5).", "quantifier": "every non-decreasing knot vector and out-of-range parameter", "why_tests_cant": "non-termination cannot be observed by a finite test", "anchors": ["spline/algorithms/knots.py:find_span", "spline/model/bspline.py:BSplineCurve.single_point", "spline/algorithms/knots.py:check_knot_vector"]}
{"id": "C05", "title": "find_span's end tolerance is harmless only when the last span is wide", "statement": "A parameter strictly inside the domain but within 1e-8 + 1e-6*|end| of the end knot is assigned to the last span. This is the right span iff u is not below knot_vector[num_ctrlpts-1]; if the last span is narrower than the tolerance the returned span does not contain u and the basis functions returned for it can be negative.", "quantifier": "every knot vector and parameter near the end; explicit failing input", "why_tests_cant": "requires quantifying over knot spacing relative to a tolerance", "anchors": ["spline/algorithms/knots.py:find_span", "spline/algorithms/basis.py:basis_functions"]}
{"id": "C06", "title": "normalize maps any non-constant vector affinely onto [0,1]", "statement": "For an array that is not constant, normalize returns an array of the same length, every entry equal to (x-min)/(max-min), hence in [0,1], with minimum 0 and maximum 1 attained, order preserved; applying it twice equals applying it once, and it is invariant under positive affine changes of the input.", "quantifier": "every non-empty, non-constant finite array", "why_tests_cant": "universally quantified over arrays", "anchors": ["spline/algorithms/knots.py:normalize"]}
{"id": "C07", "title": "normalize on a constant vector yields only NaN; on an empty one raises; on a list raises", "statement": "For a non-empty constant array every output entry is NaN (no exception); for an empty array or list ValueError; for a non-empty plain Python list AttributeError, whatever its contents.", "quantifier": "every constant, empty, or list argument", "why_tests_cant": "error branches for all inputs", "anchors": ["spline/algorithms/knots.py:normalize"]}
{"id": "C08", "title": "check_knot_vector accepts exactly the (nearly) clamped non-decreasing vectors of the right length", "statement": "For a non-empty finite array, degree >= 0 and n >= 0, check_knot_vector(degree, U, n) returns True iff U is not constant, len(U) = n+degree+1, U is non-decreasing, and after rescaling to [0,1] its first degree+1 knots are within 1e-8 + 1e-5*x of 0 and the last degree+1 knots are within 1.001e-5 (rtol 1e-5 + atol 1e-8) of 1; otherwise it returns False. Every clamped knot vector is accepted.", "quantifier": "every degree, n, array", "why_tests_cant": "an iff over all vectors, including the case where the code inspects one element rather than the last degree+1", "anchors": ["spline/algorithms/knots.py:check_knot_vector"]}
{"id": "C09", "title": "generate_uniform builds a clamped uniform knot vector", "statement": "For degree >= 0 and num_ctrlpts >= degree+1 the result has num_ctrlpts+degree+1 entries; the first degree+1 are 0, the last degree+1 are 1, the interior ones are j/(num_ctrlpts-degree), strictly increasing, so every non-empty span has equal length. For num_ctrlpts < degree-1, or degree < 0, it raises ValueError.", "quantifier": "every degree and control point count", "why_tests_cant": "all sizes", "anchors": ["spline/algorithms/knots.py:generate_uniform"]}
{"id": "C10", "title": "generated knot vectors are accepted exactly when there are at least degree+1 control points", "statement": "check_knot_vector(degree, generate_uniform(degree,n), n) is True for every degree >= 0 and n >= degree+1, and False for n = degree >= 1 (which initialize_curve nevertheless allows).", "quantifier": "every degree and n", "why_tests_cant": "all sizes", "anchors": ["spline/algorithms/knots.py:generate_uniform", "spline/algorithms/knots.py:check_knot_vector"]}
{"id": "C11", "title": "find_multiplicity counts knots within tolerance", "statement": "find_multiplicity(u,U) is the number of entries x with |u-x| <= 1e-8 + 1e-5*|x|; it is never less than the exact multiplicity and equals it when all other knots are farther away than the tolerance; two distinct knots closer than the tolerance are both counted.", "quantifier": "every parameter and knot vector", "why_tests_cant": "all vectors", "anchors": ["spline/algorithms/knots.py:find_multiplicity"]}
{"id": "C12", "title": "knot insertion returns the old knots plus the new ones, still sorted", "statement": "If find_span returns a usable span k for x, the control points are 3-D, and num_inserts=r >= 0 with r + multiplicity <= degree, curve_knot_insertion returns the old knot vector with r copies of x inserted after position k (over any numbers) and r more control points than before. The result is non-decreasing when span k contains x (always, except within the end tolerance), keeps the first degree+1 knots and all knots from position num_ctrlpts on. Planar control points raise ValueError.", "quantifier": "every degree, knot vector, control polygon, parameter, r", "why_tests_cant": "all sizes and search outcomes", "anchors": ["spline/algorithms/knots.py:curve_knot_insertion"]}
{"id": "C13", "title": "knot insertion does not change the curve", "statement": "For every u in the domain that is not already a knot (in the tolerance sense) and every 1 <= r <= degree, and for already present knots whose span is found half-open, the refined knot vector and control points define the same curve: the Cox-de Boor sums agree at every parameter value.", "quantifier": "every degree, knot vector, control points, inserted knot, r and every evaluation parameter", "why_tests_cant": "equality of functions; tests compare one point of one curve", "anchors": ["spline/algorithms/knots.py:curve_knot_insertion"]}
{"id": "C14", "title": "re-inserting an existing knot can change the curve", "statement": "When the inserted value is an existing interior knot for which the span search returns the span ending at it, the control points produced are wrong: there is a legal curve, and a legal insertion of an existing simple knot, after which evaluation gives a different point. Likewise, inserting a new knot more often than the degree is not refused and changes the curve.", "quantifier": "explicit failing input of a for-all claim", "why_tests_cant": "depends on which span the bisection stops at", "anchors": ["spline/algorithms/knots.py:curve_knot_insertion", "spline/algorithms/knots.py:find_span"]}
{"id": "C15", "title": "knot insertion only makes convex combinations and keeps the ends", "statement": "Under the conditions of C13 every coordinate of new control point i lies in the range of that coordinate over the old control points i-r..i, control points up to k-degree are copied unchanged, those from k-multiplicity on are copied unchanged (shifted by r); in particular the first and last control points are kept.", "quantifier": "every legal insertion", "why_tests_cant": "all inputs", "anchors": ["spline/algorithms/knots.py:curve_knot_insertion"]}
{"id": "C16", "title": "basis_functions computes the Cox-de Boor basis", "statement": "For a non-empty span s containing u, basis_functions(s,u,p,U) returns exactly the p+1 Cox-de Boor B-spline values N_{s-p,p}(u)..N_{s,p}(u), with no division by zero.", "quantifier": "every degree, knot vector, span and parameter", "why_tests_cant": "functional equality with the mathematical definition for all inputs", "anchors": ["spline/algorithms/basis.py:basis_functions"]}
{"id": "C17", "title": "basis_functions is a partition of unity", "statement": "The values returned for any non-empty span sum to exactly 1, for every parameter value, even outside the span.", "quantifier": "every degree, knot vector, span, parameter", "why_tests_cant": "algebraic identity", "anchors": ["spline/algorithms/basis.py:basis_functions"]}
{"id": "C18", "title": "basis_functions is non-negative inside the span", "statement": "For knot_vector[s] <= u <= knot_vector[s+1] with a non-empty span, all returned values lie in [0,1].", "quantifier": "every degree, knot vector, span, parameter in the span", "why_tests_cant": "inequality over all inputs", "anchors": ["spline/algorithms/basis.py:basis_functions"]}
{"id": "C19", "title": "basis_functions at the clamped ends", "statement": "At u = knot_vector[degree] of a clamped vector the returned values are (1,0,...,0), at u = knot_vector[num_ctrlpts] they are (0,...,0,1).", "quantifier": "every clamped knot vector", "why_tests_cant": "all sizes", "anchors": ["spline/algorithms/basis.py:basis_functions"]}
{"id": "C20", "title": "basis_functions on an empty span produces NaN", "statement": "If knot_vector[s] = knot_vector[s+1] = u and degree >= 1 then every value returned is NaN, and so is every coordinate of a curve evaluated there. Together with C03 there is a legal curve on which evaluation at a double interior knot returns NaN instead of a point.", "quantifier": "every empty span at u; explicit curve", "why_tests_cant": "division by zero hidden by numpy", "anchors": ["spline/algorithms/basis.py:basis_functions", "spline/algorithms/knots.py:find_span"]}
{"id": "C21", "title": "one_basis_function computes the Cox-de Boor function for every parameter", "statement": "For a non-decreasing knot vector whose end knots have multiplicity exactly degree+1, every index 0 <= i < num_ctrlpts and every finite u (inside or outside the domain), one_basis_function returns N_{i,p}(u) with the usual convention that the last span is closed; there is never a division by zero. With a further repeated end knot (which check_knot_vector accepts) this fails: two functions report the value 1 at the same parameter.", "quantifier": "every degree, clamped knot vector, index, parameter", "why_tests_cant": "functional equality with the definition for all inputs", "anchors": ["spline/algorithms/basis.py:one_basis_function"]}
{"id": "C22", "title": "the single-function and the batch evaluators agree", "statement": "For a knot vector with end knots of multiplicity exactly degree+1, u in the domain and the span s in which u lies, one_basis_function(p,U,s-p+r,u) equals entry r of basis_functions(s,u,p,U), and is 0 for all other indices.", "quantifier": "every degree, clamped knot vector, parameter", "why_tests_cant": "cross-function agreement for all inputs", "anchors": ["spline/algorithms/basis.py:one_basis_function", "spline/algorithms/basis.py:basis_functions"]}
{"id": "C23", "title": "all single basis functions sum to one", "statement": "For a knot vector with end knots of multiplicity exactly degree+1 and u in [first knot, last knot] the values of one_basis_function over all indices lie in [0,1] and sum to 1, so the partition-of-unity guard in the curve and surface fit never fires on data whose parameters lie in the domain.", "quantifier": "every clamped knot vector and parameter, every data set", "why_tests_cant": "all inputs", "anchors": ["spline/algorithms/basis.py:one_basis_function", "fit/algorithms/fitting.py:single_fit_curve", "fit/algorithms/fitting.py:single_fit_surface"]}
{"id": "C24", "title": "basis_function_ders column 0 equals basis_functions", "statement": "For every span with non-zero denominators, entry [r,0] of basis_function_ders equals entry r of basis_functions.", "quantifier": "every degree, knot vector, span, parameter, derivative order", "why_tests_cant": "cross-function agreement", "anchors": ["spline/algorithms/basis.py:basis_function_ders", "spline/algorithms/basis.py:basis_functions"]}
{"id": "C25", "title": "basis_function_ders returns true derivatives", "statement": "For a non-empty span s and 0 <= k <= deriv_order (orders above the degree included), entry [r,k] is the k-th derivative at u of the polynomial piece of N_{s-p+r,p} on that span, which is the function itself on the whole span.", "quantifier": "every degree, order, knot vector, span, parameter", "why_tests_cant": "derivative of a function; tests compare nine numbers", "anchors": ["spline/algorithms/basis.py:basis_function_ders"]}
{"id": "C26", "title": "derivatives of the basis sum to zero", "statement": "For every k >= 1 the k-th derivatives of the degree+1 non-vanishing basis functions returned by basis_function_ders sum to 0.", "quantifier": "every degree, order, knot vector, span, parameter", "why_tests_cant": "algebraic identity", "anchors": ["spline/algorithms/basis.py:basis_function_ders"]}
{"id": "C27", "title": "one_basis_function_ders returns true derivatives away from the right end", "statement": "For order <= degree and u inside [U[i], U[i+p+1]) the returned entries are the value and (right) derivatives up to the requested order of N_{i,p} at u; outside they are zero. An order above the degree raises IndexError inside the support. At the right end of a clamped vector it returns value 0 for the last function although one_basis_function returns 1 there.", "quantifier": "every degree, order, knot vector, index, parameter; explicit disagreement", "why_tests_cant": "derivative of a function", "anchors": ["spline/algorithms/basis.py:one_basis_function_ders", "spline/algorithms/basis.py:one_basis_function"]}
{"id": "C28", "title": "curve evaluation is the B-spline sum", "statement": "On a curve with clamped knots and n 3D control points, single_point(u) returns sum_i N_{i,p}(u) P_i for every u in [0,1] for which the span found is non-empty and contains u (if u is the right end of that span, interior knots must have multiplicity at most degree); with distinct interior knots on [0,1] this is every u, except inside the end tolerance when the last span is narrower than it. There the value can leave the bounding box of the control points. It raises ValueError for every u outside [0,1] (and NaN).", "quantifier": "every curve and parameter", "why_tests_cant": "function equality", "anchors": ["spline/model/bspline.py:BSplineCurve.single_point"]}
{"id": "C29", "title": "curves interpolate their end control points", "statement": "single_point(0) is the first control point and single_point(1) the last, for every curve on [0,1] whose end knots have multiplicity exactly degree+1; with one end knot more (accepted by check_knot_vector) single_point(1) can be NaN.", "quantifier": "every clamped curve", "why_tests_cant": "all curves", "anchors": ["spline/model/bspline.py:BSplineCurve.single_point"]}
{"id": "C30", "title": "curves stay in the bounding box of their active control points", "statement": "At every u for which the span found is non-empty and contains u, every coordinate of single_point(u) lies between the minimum and maximum of that coordinate over the degree+1 active control points (hence over all control points).", "quantifier": "every curve and parameter whose span contains it", "why_tests_cant": "inequality for all inputs", "anchors": ["spline/model/bspline.py:BSplineCurve.single_point"]}
{"id": "C31", "title": "curve evaluation is affinely invariant", "statement": "Applying a 3-D affine map x -> M x + b to all control points applies the same map to every evaluated point (at every u for which the span found is non-empty).", "quantifier": "every curve, parameter, matrix M, vector b", "why_tests_cant": "algebraic law", "anchors": ["spline/model/bspline.py:BSplineCurve.single_point"]}
{"id": "C32", "title": "moving a control point only changes the curve locally", "statement": "If two curves on [0,1] differ only in control point i (points of any dimension), their values agree (exceptions included) at every u outside [U[i], U[i+p+1]], except inside the end tolerance when the last span is narrower than it.", "quantifier": "every pair of curves and parameter", "why_tests_cant": "all inputs", "anchors": ["spline/model/bspline.py:BSplineCurve.single_point"]}
{"id": "C33", "title": "points is single_point applied in order", "statement": "points(us) of a 1-D parameter array returns one row per parameter, in order, equal to single_point of it, and raises iff some parameter raises; arrays of other rank raise ValueError.", "quantifier": "every curve and parameter array", "why_tests_cant": "all lengths", "anchors": ["spline/model/bspline.py:BSplineCurve.points", "spline/model/bspline.py:BSplineSurface.points"]}
{"id": "C34", "title": "curve derivatives never succeed", "statement": "For every curve and every argument, BSplineCurve.derivatives raises (or diverges): orders <= 1 are rejected although documented, and all other calls fail because a two-component value is stored in a three-component row.", "quantifier": "every curve, parameter, order, flag", "why_tests_cant": "for-all over inputs", "anchors": ["spline/model/bspline.py:BSplineCurve.derivatives"]}
{"id": "C35", "title": "control points assigned to a curve are never stored", "statement": "After any sequence of assignments to degree, control_points and knot_vector of a spline curve (class read with the surface class de-nested), control_points and knot_vector still read None; every evaluation raises TypeError.", "quantifier": "every history of API calls", "why_tests_cant": "all histories", "anchors": ["spline/model/base_geometry.py:SplineCurve.control_points", "spline/model/base_geometry.py:SplineCurve.knot_vector", "spline/model/bspline.py:BSplineCurve"]}
{"id": "C36", "title": "degree and order guards of curve setters", "statement": "Assigning a degree < 1 raises ValueError and changes nothing; assigning control points before a degree, or a knot vector before degree and control points, raises ValueError and changes nothing; an invalid knot vector is silently ignored (no exception and no update). The constructor performs none of these checks.", "quantifier": "every state and argument", "why_tests_cant": "all states", "anchors": ["spline/model/base_geometry.py:SplineCurve"]}
{"id": "C37", "title": "insert_knot on a curve always fails and changes nothing", "statement": "BSplineCurve.insert_knot raises for every argument and state, leaving the curve unchanged.", "quantifier": "every state, argument", "why_tests_cant": "all states", "anchors": ["spline/model/bspline.py:BSplineCurve.insert_knot"]}
{"id": "C38", "title": "dictionary conversion of curves is not a round trip", "statement": "to_dict raises on every curve; from_dict raises ValueError unless the key set is exactly degree/knot_vector/control_points, and otherwise returns the class itself: after loading two dictionaries both results show the data of the second.", "quantifier": "every curve, every dictionary, every sequence of loads", "why_tests_cant": "aliasing over histories", "anchors": ["spline/model/bspline.py:BSplineCurve.from_dict", "spline/model/bspline.py:BSplineCurve.to_dict"]}
{"id": "C39", "title": "surface evaluation is the tensor-product sum", "statement": "For clamped knots in both directions, single_point(u,v) = sum_i sum_j N_i(u) N_j(v) P_{i,j} with P_{i,j} at row i*num_v + j, at all u, v in [0,1] where the spans found are non-empty and contain u and v (at right ends of spans, interior multiplicities at most the degree); with distinct interior knots on [0,1], everywhere except inside the end tolerance when the last span is narrower than it. ValueError when u or v is outside [0,1]. points returns single_point of each row in order and rejects arrays that are not 2-D.", "quantifier": "every surface and parameter pair", "why_tests_cant": "function equality", "anchors": ["spline/model/bspline.py:BSplineSurface.single_point"]}
{"id": "C40", "title": "surface corners, edges and bounding box", "statement": "On a surface over [0,1]^2 with end knots of multiplicity exactly degree+1, the four corners are interpolated; S(u,0), S(u,1), S(0,v), S(1,v) are the curves of the first and last control column and row (at parameters whose span found is non-empty). For any non-decreasing knots every coordinate stays within the range of the active control points whenever the spans found are non-empty and contain the parameters.", "quantifier": "every surface and parameter", "why_tests_cant": "all inputs", "anchors": ["spline/model/bspline.py:BSplineSurface.single_point"]}
{"id": "C41", "title": "surface derivatives are the partial derivatives in a fixed layout", "statement": "For orders >= 0 and non-empty spans, with normalize=False, derivatives(u,v,order_u,order_v) has (min(order_u,degree_u)+1)(min(order_v,degree_v)+1) rows; row a*(min(order_v,degree_v)+1)+b is the mixed partial d^a/du^a d^b/dv^b of the surface piece, and row 0 equals single_point(u,v). With normalize=True row 0 is the same, rows of norm at most 1e-8 are the same, and every other row is divided by its norm. A u or v that is not a number in [0,1] raises ValueError.", "quantifier": "every surface, parameter pair, orders", "why_tests_cant": "derivatives and all sizes", "anchors": ["spline/model/bspline.py:BSplineSurface.derivatives"]}
{"id": "C42", "title": "surface objects cannot be constructed or given knots", "statement": "Constructing a surface raises TypeError for every keyword set. On a surface object whose constructor got through: a degree below 1 raises ValueError and stores nothing, others are stored; a count before its degree raises TypeError, a count not above its degree ValueError, others are stored; the control point setter needs both degrees and then accepts exactly the arrays of the wrong dimension; each setter leaves every other attribute alone. After any sequence of assignments, degrees (if set) are >= 1, counts are >= 2 (but may be too small for a degree raised later), both knot vectors still read None, assigning one raises (ValueError before degree and control points, AttributeError after), and evaluation at valid parameters raises AttributeError.", "quantifier": "every argument, every history of assignments", "why_tests_cant": "all arguments", "anchors": ["spline/model/base_geometry.py:SplineSurface"]}
{"id": "C43", "title": "the initial curve is the straight segment", "statement": "initialize_curve(start,end,p,n) with n >= p+1 >= 2 (given a curve class whose control point setter stores) yields n control points equally spaced from start to end and the uniform clamped knot vector; for n-p <= 900000 every point of the resulting curve lies on the segment, starting at start and ending at end. For n < p or p < 1 it raises ValueError; for n = p it returns a curve without a knot vector; points with fewer than 3 coordinates raise IndexError. With the repository's curve class it never returns a curve.", "quantifier": "every start, end, degree, n", "why_tests_cant": "all sizes and parameters", "anchors": ["fit/algorithms/initialization.py:initialize_curve"]}
{"id": "C44", "title": "the initial guess on a curve is the closest sample", "statement": "initial_guess_curve returns the first of the 2n equally spaced samples minimising the distance to the point provided some distance is below 1e6; otherwise it returns 0. A curve without control points raises IndexError. In binary64 the accumulated samples can miss the end parameter 1.", "quantifier": "every curve, point", "why_tests_cant": "arg-min over all samples and inputs", "anchors": ["fit/algorithms/parameterize.py:initial_guess_curve"]}
{"id": "C45", "title": "curve inversion terminates with a parameter in [0,1]", "statement": "For every curve object (any single_point/derivatives behaviour) and every max_iter >= 0, curve_inversion performs at most max_iter+2 Newton steps, and if it returns, the value is NaN or in [0,1]; it is in [0,1] if the curve rejects other parameters.", "quantifier": "every curve behaviour, point, tolerances", "why_tests_cant": "iteration over arbitrary functions", "anchors": ["fit/algorithms/parameterize.py:curve_inversion"]}
{"id": "C46", "title": "curve inversion may return the iterate before convergence", "statement": "What curve_inversion returns is either an initial guess that meets the distance or angle criterion, or a parameter from which one further Newton step is accepted (the accepted iterate itself is not returned), or the last iterate when the rounds run out. On a straight line, where one Newton step is exact, the result is always the initial sample. There is a curve and point where the result meets no criterion although the accepted iterate was computed. With the repository's curve class, or curves of degree 1, it never returns.", "quantifier": "every curve behaviour, point, tolerances; explicit failing input for the for-all claim that a converged result is returned", "why_tests_cant": "needs control-flow reasoning", "anchors": ["fit/algorithms/parameterize.py:curve_inversion"]}
{"id": "C47", "title": "surface inversion terminates with parameters in [0,1]^2", "statement": "For every surface object whose evaluator rejects parameters outside [0,1], surface_inversion performs at most max_iter+1 steps and a returned pair lies in [0,1] x [0,1]. A returned pair is an accepted initial guess, or an iterate accepted with the tangents of the previous iterate, or the last one. Its first two steps use no derivatives but those at the initial guess. On a flat patch it finds the orthogonal projection exactly unless the initial guess passes the tests. With a degree 1 in either direction it never returns.", "quantifier": "every surface behaviour, point, tolerances", "why_tests_cant": "iteration over arbitrary functions", "anchors": ["fit/algorithms/parameterize.py:surface_inversion"]}
{"id": "C48", "title": "the initial guess on a surface is the closest grid sample", "statement": "initial_guess_surf returns the first (u-major) of the 2nu*2nv grid samples minimising the distance provided some distance is below 1e6; otherwise (0,0). Without control points it raises IndexError.", "quantifier": "every surface, point", "why_tests_cant": "arg-min", "anchors": ["fit/algorithms/parameterize.py:initial_guess_surf"]}
{"id": "C49", "title": "parameterize_curve keeps every data point and sorts by parameter", "statement": "For 3-D data the result is a permutation of the data rows each extended by its inverted parameter, and, when the curve rejects parameters outside [0,1], in ascending parameter order (ties broken by coordinates); data whose number of columns plus one is not divisible by 4 never succeeds.", "quantifier": "every data set, curve", "why_tests_cant": "all lengths and permutations", "anchors": ["fit/algorithms/parameterize.py:parameterize_curve"]}
{"id": "C50", "title": "parameterize_surface keeps every data point and sorts by (u,v)", "statement": "For 3-D data the result is a permutation of the data rows each extended by its inverted pair, and, when the surface rejects parameters outside [0,1], in lexicographic (u,v) order (ties broken by coordinates); data whose number of columns plus two is not divisible by 5 never succeeds.", "quantifier": "every data set, surface", "why_tests_cant": "all lengths and permutations", "anchors": ["fit/algorithms/parameterize.py:parameterize_surface"]}
{"id": "C51", "title": "linear_fit_fixed keeps fixed values exactly", "statement": "The result has the length of P, agrees with P at every fixed index, and at the free indices carries the solver's values in order; when everything is fixed P is returned without calling the solver; a mask shorter than P raises IndexError. The condition number is computed only from log level 2 on: below that the result does not depend on np.linalg.cond; from 2 on, with at least one free index, its exception is the outcome of the call.", "quantifier": "every matrix, vectors, mask, solver", "why_tests_cant": "all sizes and masks", "anchors": ["fit/algorithms/fitting.py:linear_fit_fixed"]}
{"id": "C52", "title": "linear_fit_fixed is the constrained least-squares optimum", "statement": "If the linear solver returns a minimiser of the free problem, the result minimises ||R x - Q|| over all x agreeing with P on the fixed indices.", "quantifier": "every matrix, vectors, mask", "why_tests_cant": "optimality over all competitors", "anchors": ["fit/algorithms/fitting.py:linear_fit_fixed"]}
{"id": "C53", "title": "a curve fit keeps the end points and is optimal", "statement": "With end knots of multiplicity exactly degree+1, a least-squares solver and a curve class whose control point setter stores, single_fit_curve on 3-D data returns a curve, keeps the first and last control points and the number of control points, leaves degree and knots alone, and its control points minimise the squared distance to the data over all control polygons with those ends, provided the parameters lie in the domain. Parameters outside the domain give zero rows: if their number exceeds 1e-8 + 1e-5 times the number of data points, ValueError is raised, otherwise the fit goes on with them silently. The kept quantities are kept for any numbers and solver. An exception of np.linalg.cond is the outcome of the fit. With the repository's setter the fit is discarded: the curve is unchanged.", "quantifier": "every curve, data set, solver", "why_tests_cant": "optimality and all sizes", "anchors": ["fit/algorithms/fitting.py:single_fit_curve"]}
{"id": "C54", "title": "a surface fit keeps exactly the boundary control points", "statement": "single_fit_surface marks as fixed exactly the control points in the first/last row or first/last column of the net, so these are unchanged, and (end knots of multiplicity exactly degree+1, parameters in the domain, least-squares solver) the others minimise the squared distance over all nets with this boundary. Data points with a parameter outside the domain in either direction give zero rows: more than 1e-8 + 1e-5 times the number of data points of them raise ValueError, fewer pass silently. An exception of np.linalg.cond is the outcome of the fit.", "quantifier": "every surface, data set", "why_tests_cant": "index arithmetic for all sizes", "anchors": ["fit/algorithms/fitting.py:single_fit_surface"]}
{"id": "C55", "title": "the adaptive fit stops with degree + 2^k control points", "statement": "fit_curve_knot_insertion runs at most num_pts rounds. Started from a single-segment curve on [0,1], with a least-squares solver, num_pts <= degree+65536 and a working curve class, a result has degree + 2^k control points where k is least with that number >= num_pts, uniform knots, the same end points, and minimal error for the parameters of the last projection; so the requested number is only reached when it has this form. With the repository's curve class it never returns.", "quantifier": "every degree, requested number, data set and solver", "why_tests_cant": "iteration to an unbounded depth", "anchors": ["fit/algorithms/fitting.py:fit_curve_knot_insertion"]}
{"id": "C56", "title": "the surface fit ignores the boundary data", "statement": "The result of fit_surface depends on the parameterised points of the top and bottom boundaries only through their number of columns: any other than the data's number of columns plus 1 raises ValueError, a missing boundary never succeeds. The result is the optimal fit to the projected interior points alone.", "quantifier": "every surface, data, pair of boundaries", "why_tests_cant": "non-interference over all inputs", "anchors": ["fit/algorithms/fitting.py:fit_surface"]}
{"id": "C57", "title": "boundary problem setters keep their guards", "statement": "After any sequence of assignments and method calls on a new boundary problem, degree, data, start, end and fit_method each hold the value of the last accepted assignment (or their initial value), and so does num_ctrlpts if fit was not called. Accepted are: as degree an int >= 1 or a float that is not <= 0, cut to an integer; as num_ctrlpts whatever int() turns into an integer >= 4 (3 control points are refused); as data a 2-D array of width 2 or 3; as start or end a 1-D array of 2 or 3 entries; as fit_method exactly the names 'fixed' and 'adaptive'. A refused assignment changes nothing and raises TypeError for the wrong kind of value (a degree or method that is no number resp. string), OverflowError for an infinite number, the exception of np.array if that failed, ValueError otherwise. Degree 0 is reachable by assigning 0.5; degree is never negative. For interior problems the same holds with num_ctrlpts >= 3 and for the top and bottom boundary.", "quantifier": "every history of assignments and calls, every number type in which int() of a positive number is not negative (exact and binary64 are such)", "why_tests_cant": "all histories", "anchors": ["fit/model/base_data.py:BoundaryProblem", "fit/model/base_data.py:InteriorProblem"]}
{"id": "C58", "title": "refitting a boundary uses stale settings", "statement": "Once an initial curve exists it is replaced only by set_init_curve: two problems with the same initial curve, data, num_ctrlpts and method get the same fit curve and parameterized data whatever their degree, start and end. After a successful fit num_ctrlpts is len(knot vector) - current degree - 1, which is not the number of control points when the degree was changed in between; if that number is below 4 the fit raises ValueError after storing the new curve. parameterize projects the data on the fit curve if any, otherwise on the initial curve, which it makes first if there is none (raising and changing nothing if that fails); it stores the result, one column wider than the data, and changes nothing else; without data it raises TypeError. Saving before a fit and loading after one raise ValueError; saving never succeeds and changes no file; loading never succeeds: without a fit a file that cannot be opened raises its error, and a well-formed curve file AttributeError (the curve is assigned to None). A start or end point with two coordinates makes set_init_curve raise IndexError. With the repository's curve class no initial curve, fit or parameterized data is ever produced. A fit without data raises TypeError and changes nothing except that it makes the initial curve if there is none.", "quantifier": "every history, curve class, solver and number type", "why_tests_cant": "all histories", "anchors": ["fit/model/base_data.py:BoundaryProblem.fit", "fit/model/base_data.py:BoundaryProblem.parameterize", "fit/model/base_data.py:BoundaryProblem.set_init_curve", "fit/model/base_data.py:BoundaryProblem.save", "fit/model/base_data.py:BoundaryProblem.load"]}
{"id": "C59", "title": "the initial surface is ruled between the boundaries", "statement": "With equal degrees and counts of the two boundaries, set_init_surface (given a surface class that can be constructed) produces the net whose point (i,j) is B_i + j/(nv-1) (T_i - B_i), the bottom curve's knot vector in u and the uniform one in v; then S(u,0) is the bottom curve, S(u,1) the curve of the top control points over the bottom knots, and S(u,v) = B(u) + phi(v)(T(u) - B(u)) with phi from 0 to 1 depending on v only. Different degrees or counts raise ValueError. parameterize projects the data on the fit surface if any, otherwise on the initial surface, made first if there is none. The VTK export samples the fit surface at the 101 x 101 points (i/100, j/100). With the repository's surface class no initial surface, fit or parameterized data is ever produced, whatever is assigned. Only Boundary objects on which the caller has set fit_curve (not None) by hand are accepted as boundaries; if none is ever assigned, then after any history, for any surface class, set_init_surface, parameterize, fit and the VTK export raise AttributeError, save raises ValueError and load never succeeds. Unset degrees or counts, and boundary curves without control points, raise TypeError; a boundary without a fit raises AttributeError. Loading after a fit raises ValueError.", "quantifier": "every pair of boundary fits of degree >= 1 with end knots of multiplicity degree+1 on [0,1], every degree and count (at most degree+900000) in v, every u, v; every history", "why_tests_cant": "all sizes and parameters", "anchors": ["fit/model/base_data.py:InteriorProblem.set_init_surface", "fit/model/base_data.py:InteriorProblem"]}
{"id": "C60", "title": "saving a curve to text never writes", "statement": "write_curve_to_txt raises for every curve, file name and file system (the error of opening the file, FileNotFoundError if it does not exist, otherwise UnsupportedOperation because the file is opened for reading) and leaves all files unchanged. Opening it for writing would not be enough: the body raises TypeError after writing the header lines (Degree, which is 'None' if unset, the number of knots and the title of the knot vector; only the first three lines if there is no knot vector).", "quantifier": "every curve, file system", "why_tests_cant": "all inputs", "anchors": ["fit/io/text.py:write_curve_to_txt"]}
{"id": "C61", "title": "saved surfaces cannot be read back", "statement": "write_surface_to_txt produces the documented line layout and touches no other file; for every such surface, reading the file back raises ValueError and sets no attribute of the surface, because every knot line ends in a tab whose empty field is not a number; the integer lines do decode, also with blanks around the digits or a plus sign, and a blank line raises ValueError. A control point with fewer than three coordinates raises IndexError and leaves the file cut off before it; a file that cannot be opened is not touched. The number formatting and parsing are arbitrary functions that satisfy: formatted numbers are non-empty, contain no white space, parse back, and the empty text does not parse.", "quantifier": "every surface", "why_tests_cant": "all surfaces", "anchors": ["fit/io/text.py:write_surface_to_txt", "fit/io/text.py:read_surf_from_txt"]}
{"id": "C62", "title": "writing a curve as JSON destroys the target file", "statement": "CurveWriter cannot be constructed (TypeError for every argument list). Its write method, for a .json path, empties the file whatever it held and then raises AttributeError; for other extensions it raises ValueError before touching the file system. A path counts as .json exactly when its last component ends in '.json' and has a character other than a dot before that. Reading changes no file and never returns a curve: an unsupported name raises ValueError, a file that cannot be opened or decoded raises that exception, a dictionary whose keys are not exactly degree, knot_vector and control_points raises ValueError, all leaving the class alone; otherwise the values are stored in the class attributes and None is returned.", "quantifier": "every curve, file system, path", "why_tests_cant": "all file systems", "anchors": ["fit/io/curve.py:CurveWriter.write", "fit/io/curve.py:CurveReader.read"]}
{"id": "C63", "title": "VTK sampling grid", "statement": "In exact arithmetic surf_to_vtk evaluates the (n_tri+1)^2 grid points (i/n_tri, j/n_tri), in order, all parameters inside [0,1], filling its buffer exactly, for every n_tri >= 1; it triangulates these parameter pairs and writes the surface points S(i/n_tri, j/n_tri) in the same order with the triangles found (surfaces with distinct interior knots on [0,1]^2, n_tri <= 900000); n_tri = 0 raises ZeroDivisionError. In binary64 the same code fails for some n_tri: with n_tri = 47 for every surface (buffer too short), with n_tri = 6 for every surface that rejects parameters above 1.", "quantifier": "every n_tri; explicit failing n_tri in binary64", "why_tests_cant": "all sizes, rounding", "anchors": ["fit/io/text.py:surf_to_vtk"]}
{"id": "C64", "title": "which modules of the package can be imported", "statement": "In one process, whatever project modules were imported (or failed to import) before, each import has a fixed outcome: spline.model.base_geometry and fit.io.base_io raise NameError (abc is not imported); spline.model.bspline and fit.io.curve raise NameError (ModuleNotFoundError without numpy); the fit modules fitting, initialization, parameterize, text and base_data raise ImportError; every test module raises ModuleNotFoundError (there is no package pysplinefit); only the packages, spline.util.validation and (with numpy) spline.algorithms.knots and basis import. A failed module is never left loaded. Adding 'import abc' to the two base modules makes only those two import: bspline and fit.io.curve then raise ImportError because SplineSurface is nested inside SplineCurve. With SplineSurface also moved out of SplineCurve, those two import as well (ModuleNotFoundError without numpy); the modules with relative imports and the tests still do not. A source file that imports holds exactly the names it defines and imports. parameterize, initialization, text and base_data import if and only if their packages hold the names they take from them (np; np, spline, knots; np, spatial, meshio; spline, np, knots, parameterize, fitting, fileIO, initialization), fitting, given parameterize and initialization, if and only if its package holds np, basis and spline; otherwise ImportError.", "quantifier": "every sequence of imports of project modules, with and without numpy", "why_tests_cant": "all import histories; tests cannot run when their own import fails", "anchors": ["spline/model/base_geometry.py:7", "spline/model/base_geometry.py:86", "spline/model/base_geometry.py:157", "spline/model/bspline.py:7-12", "fit/io/base_io.py:7-25", "fit/io/curve.py", "fit/io/text.py", "fit/model/base_data.py", "fit/algorithms/fitting.py", "fit/algorithms/parameterize.py", "fit/algorithms/initialization.py", "tests/context.py"]}
{"id": "C65", "title": "a fit with a given number of control points keeps shape and ends", "statement": "When fit_curve_fixed_ctrlpts returns a curve, it has the degree, the knot vector and the number of control points of the given curve, and its first and last control points; in exact arithmetic with a least-squares solver its error, for the parameters of the last projection, is minimal among all such curves with these end points; with the repository's curve class it never returns.", "quantifier": "every curve, data set, solver and number type", "why_tests_cant": "all inputs and solvers", "anchors": ["fit/algorithms/fitting.py:fit_curve_fixed_ctrlpts"]}
{"id": "C66", "title": "the text readers decode the layout when knot lines have no trailing tab", "statement": "Reading a file in the documented surface layout, with tab-separated knot lines and no trailing tab, assigns exactly the degrees, counts, knot vectors and control points of the file; the number-of-knots lines are ignored. The same holds for curves if the control point setter works and the knot vector is accepted; with the repository's curve class, whose control point setter stores nothing, reading a curve always ends in ValueError.", "quantifier": "every degree, count, knot vector, control net, file system", "why_tests_cant": "all file contents of that form", "anchors": ["fit/io/text.py:read_surf_from_txt", "fit/io/text.py:read_curve_from_txt"]}
{"id": "C67", "title": "a boundary fit runs from the start point to the end point", "statement": "When fit succeeds on a boundary problem without an initial curve (exact arithmetic, least-squares solver, working curve class, 3-D points), the fit curve starts at start and ends at end, has num_ctrlpts control points (fixed) or the least degree + 2^k >= num_ctrlpts (adaptive), num_ctrlpts becomes its number of control points, its error for the parameters of the last projection is minimal among curves with the same knots and ends, and parameterized_data is the projection of the data on it.", "quantifier": "every start, end, degree >= 1, num_ctrlpts > degree (at most degree+65536 when adaptive), data set, solver", "why_tests_cant": "all data sets and sizes", "anchors": ["fit/model/base_data.py:BoundaryProblem.fit", "fit/algorithms/fitting.py:fit_curve_knot_insertion", "fit/algorithms/fitting.py:fit_curve_fixed_ctrlpts"]}
{"id": "C68", "title": "the geometry classes as the source is indented", "statement": "As indented, the methods written for the surface class are methods of SplineCurve: its constructor ignores degree, and degree raises AttributeError until it is assigned. After any sequence of requests to degree, control_points, knot_vector and insert_knot the control points are still None, assigning them raises ValueError, assigning a knot vector raises (AttributeError before a degree, ValueError after), and evaluation raises. Assigning degree_u and degree_v as well (any values >= 1) makes control points of a dimension other than the declared one and a valid knot vector stick, and evaluation is then that of the curve; control points of the declared dimension are refused in every state. knot_vector_u and knot_vector_v are never stored. A surface on the nested class accepts any public attribute, but evaluation raises AttributeError unless the private attributes are assigned by hand. In every state insert_knot raises UnboundLocalError and changes nothing, a degree below 1 raises ValueError, others are stored, and a knot vector is stored exactly if degree and control points are set and the check accepts it. No request changes an attribute other than its own.", "quantifier": "every history of requests, every constructor argument and number type", "why_tests_cant": "all histories of assignments; the test modules cannot be imported", "anchors": ["spline/model/base_geometry.py:157-346", "spline/model/base_geometry.py:49-84", "spline/model/bspline.py:15-45", "spline/model/bspline.py:182-226"]}
{"id": "C69", "title": "Data and Boundary objects accept no arrays", "statement": "The data setter of Data and Boundary, and the start/end setters of Boundary, raise TypeError for every numpy array (shape is called as a function) and AttributeError for every object without shape, and store nothing; only an object with a callable shape is stored, exactly if shape(-1) equals the dimension. So after any sequence of assignments of other values, data (and on Boundary start and end) still raises AttributeError. The dimension given at construction never changes. Otherwise each attribute holds the last value accepted for it, whatever was assigned in between, and a refused assignment changes no attribute. Data checks nothing on start and end.", "quantifier": "every history of assignments, every dimension and array", "why_tests_cant": "all assignment histories and arrays", "anchors": ["fit/model/base_data.py:Data", "fit/model/base_data.py:Boundary"]}
{"id": "C70", "title": "an interior fit keeps the ruled boundary and is optimal inside", "statement": "When fit succeeds on an interior problem without an initial surface (exact arithmetic, least-squares solver, working surface class, boundaries of equal degree and count whose bottom knots have end multiplicity degree+1 on [0,1], 3-D data), the edge control points of the fit surface are those of the ruled surface, S(u,0) and S(u,1) are the bottom and top boundary curves, its interior control points minimise the squared distance to the data, for the parameters obtained by projecting on the initial ruled surface, among all nets with this edge, and parameterized_data is the projection of the data on the fit surface.", "quantifier": "every pair of boundary fits, degree, count, data set, solver", "why_tests_cant": "all data sets, nets and solvers", "anchors": ["fit/model/base_data.py:InteriorProblem.fit", "fit/algorithms/fitting.py:fit_surface"]}
{"id": "C71", "title": "derivatives in all three coordinates are the true derivatives", "statement": "If the derivatives method filled all three coordinates (as the fitting code expects; the repository's allocates two, C34), then for u in [0,1] with a non-empty span found and order o >= 2 it would return min(o,p)+1 rows of 3 numbers; row k is the k-th derivative of the curve piece in every coordinate and row 0 equals single_point(u). With distinct interior knots such a span exists for every u in [0,1]. A parameter that is not a number in [0,1] raises ValueError.", "quantifier": "every degree, knot vector, control polygon, parameter and order", "why_tests_cant": "derivatives are limits, over all curves and parameters", "anchors": ["spline/model/bspline.py:derivatives", "spline/algorithms/basis.py:basis_function_ders"]}
{"id": "C72", "title": "outcomes of projecting a point on a curve", "statement": "On a curve of degree >= 2 with distinct interior knots on [0,1] (working curve class, exact arithmetic), curve_inversion of any 3-D point with any non-negative tolerances and max_iter >= 0 either returns a parameter in [0,1], or raises ValueError, and the latter only if at some parameter the tangent vanishes and the second derivative is orthogonal to the residual (0/0 Newton step). So it returns on every curve without a vanishing tangent. A point equal to one of the 2n sampled curve points is found exactly at the first such sample or an equal point. On a curve whose control points coincide every point further than the tolerance raises ValueError. parameterize_curve of any 3-D data either returns one row of 4 per data row with parameters in [0,1], or raises ValueError.", "quantifier": "every curve, point, tolerance, iteration bound and data set", "why_tests_cant": "all curves and points, including degenerate ones", "anchors": ["fit/algorithms/parameterize.py:curve_inversion", "fit/algorithms/parameterize.py:parameterize_curve"]}
{"id": "C73", "title": "outcomes of projecting a point on a surface", "statement": "On a surface of degrees >= 2 with distinct interior knots on [0,1]^2 (exact arithmetic), surface_inversion of any 3-D point with any tolerances and max_iter >= 0 either returns a pair in [0,1]^2, or raises LinAlgError, and the latter only if the Newton matrix formed from derivatives at one point and the residual at another is singular. A point equal to one of the 2nu*2nv sampled surface points is found exactly, at a sample with this value.", "quantifier": "every surface, point, tolerance and iteration bound", "why_tests_cant": "all surfaces and points, including degenerate ones", "anchors": ["fit/algorithms/parameterize.py:surface_inversion"]}
{"id": "C74", "title": "outcomes of a boundary fit", "statement": "A boundary fit without an initial curve, with 3-D start, end and data, degree >= 2, num >= degree+1 (adaptive: at most degree+65536), working curve class, least-squares solver, either succeeds or raises ValueError. If start equals end it raises ValueError and stores no fit as soon as one data point is further than 1e-5 from it. If degree >= 3, num = degree+1 and the data are sampled points of the segment from start to end, it succeeds: the fit curve runs from start to end and passes through every data point, at the parameter stored with it. An adaptive fit that needs no insertion (num <= degree+1) succeeds on any data when start differs from end.", "quantifier": "every boundary problem, data set and solver", "why_tests_cant": "all data sets and solvers; degenerate data", "anchors": ["fit/model/base_data.py:BoundaryProblem.fit", "fit/algorithms/fitting.py:fit_curve_fixed_num_pts", "fit/algorithms/fitting.py:fit_curve_knot_insertion"]}
{"id": "C75", "title": "outcomes of an interior fit", "statement": "An interior fit without an initial surface, with boundary fits of equal degree >= 2 and count (bottom knots with end multiplicity degree+1 and distinct interior knots on [0,1]), 3-D data, degree >= 2 and num >= degree+1, working surface class, least-squares solver, either succeeds or raises LinAlgError. If every data point is one of the points of the ruled surface tried as initial guess (counts at most 490000), it succeeds: the fit surface passes through every data point, at the pair stored with it.", "quantifier": "every interior problem, data set and solver", "why_tests_cant": "all data sets and solvers", "anchors": ["fit/model/base_data.py:InteriorProblem.fit", "fit/algorithms/fitting.py:fit_surface"]}
{"id": "C76", "title": "linear precision", "statement": "A curve whose control points are A + g_i D, with g_i the mean of the knots i+1..i+p, is the straight line A + u D traversed at constant speed: single_point(u) = A + u D, first derivative D, second derivative 0 (degree >= 2, distinct interior knots on [0,1]). In particular initialize_curve(start, end, p, p+1) yields start + u (end - start).", "quantifier": "every degree, knot vector, line and u in [0,1]", "why_tests_cant": "all degrees, knots and parameters", "anchors": ["spline/model/bspline.py:single_point", "fit/algorithms/initialization.py:initialize_curve"]}
{"id": "C77", "title": "curve inversion is Newton's method, one step behind", "statement": "In exact arithmetic, with a curve object whose single_point, derivatives and knot vector behave as the function expects, curve_inversion(curve, point, eps1, eps2, max_iter) returns the initial guess if it passes the distance test or the cosine test; otherwise it computes x(k+1) = x(k) - slope/curvature, clamped to [0,1], and returns the iterate BEFORE the first one that passes a test (distance, cosine, or length of the step leading to it), or iterate max_iter+2 if none passes; it raises ValueError where slope and curvature are both 0, and goes to the end of [0,1] where only the curvature is 0. For a B-spline of degree >= 2 with distinct interior knots, slope and curvature are the first and second derivative of half the squared distance to the point, inside each knot span.", "quantifier": "every curve, point, tolerance, iteration limit and sequence of iterates", "why_tests_cant": "every sequence of iterates; a test sees only the last one, within a tolerance", "anchors": ["fit/algorithms/parameterize.py:45-135"]}
{"id": "C78", "title": "surface inversion iterates with lagged derivatives", "statement": "In exact arithmetic surface_inversion computes iterate k+1 by solving Newton's 2x2 system whose residual is taken at iterate k and whose derivatives are taken at iterate k-1 (for the first step both at the guess), clamped to [0,1]^2, and returns the first iterate that passes a test (distance, both cosines with the tangents at the iterate before, or length of the step leading to it), or iterate max_iter+1 if none passes; it raises LinAlgError where the determinant is 0. When residual and derivatives belong to the same point, the system is Newton's method for the gradient of half the squared distance (degrees >= 2, distinct interior knots, inside each knot span).", "quantifier": "every surface, point, tolerance, iteration limit and sequence of iterates", "why_tests_cant": "every sequence of iterates; the lag only slows convergence, which no test sees", "anchors": ["fit/algorithms/parameterize.py:205-340"]}
{"id": "C79", "title": "the span search on doubles", "statement": "On IEEE doubles (finite knots and parameter of size at most 2^1000), for sorted knots and a parameter in the domain, find_span returns an index between degree and n-1. Either it is n-1 and the parameter is within the end tolerance T = 1e-8 + 1e-6 |last knot| (up to 8 units of 2^-53 of T), or the parameter lies in the closed span found. Unless the distance to the end lies in the band T(1 +- 8*2^-53), the answer (including divergence) is exactly that of the algorithm in exact arithmetic. The probes int((low + high) / 2), divisions of integers on doubles, are the integer halves as long as the sum is below 2^53.", "quantifier": "every finite double parameter, control net and knot vector within the stated ranges", "why_tests_cant": "rounding: a test compares within a tolerance at a few points", "anchors": ["spline/algorithms/knots.py:find_span"]}
{"id": "C80", "title": "basis functions on doubles", "statement": "On IEEE doubles, for sorted knots in [0,1] and a parameter in a span at least 2^-1000 wide, basis_functions returns degree+1 finite non-negative numbers; the sum of their absolute errors against the Cox-de Boor values is at most 8 p 2^-53, and so is the distance of their sum from 1. The sum is not always 1, and on narrower spans of an accepted knot vector the result can contain inf and NaN.", "quantifier": "every finite double parameter, control net and knot vector within the stated ranges", "why_tests_cant": "rounding: a test compares within a tolerance at a few points", "anchors": ["spline/algorithms/basis.py:basis_functions"]}
{"id": "C81", "title": "curve points on doubles", "statement": "On IEEE doubles, for clamped knots on [0,1] with interior spans at least 2^-1000 wide and control points of size at most M <= 2^900, single_point(u) for u in [0,1] returns three finite numbers, each within 10 (p+1) (2^-53 M + 2^-1075) of the B-spline curve; a parameter within 1.02e-6 of 1 must lie in the last span. For the knots of generate_uniform with at most 490000 spans this last condition always holds. End points are not reproduced exactly, and a curve all of whose control points coincide need not stay there.", "quantifier": "every finite double parameter, control net and knot vector within the stated ranges", "why_tests_cant": "rounding: a test compares within a tolerance at a few points", "anchors": ["spline/model/bspline.py:BSplineCurve.single_point", "spline/algorithms/knots.py:generate_uniform"]}
{"id": "C82", "title": "surface points on doubles", "statement": "On IEEE doubles, under the conditions of C81 in both directions and M <= 2^890, single_point(u,v) returns three finite numbers, each within 11 (p+q+1) (2^-53 M + 2^-1075) of the tensor-product surface; unconditionally in u and v for generated uniform knots with at most 490000 spans in each direction.", "quantifier": "every finite double parameter, control net and knot vector within the stated ranges", "why_tests_cant": "rounding: a test compares within a tolerance at a few points", "anchors": ["spline/model/bspline.py:BSplineSurface.single_point"]}
{"id": "C83", "title": "knot vectors on doubles", "statement": "On IEEE doubles generate_uniform(p, n), with 0 <= p < n and n-p <= 2^49, returns a clamped sorted vector with exactly p+1 zeros and p+1 ones at the ends, interior knots within 3*2^-53 of i/(n-p) (not always the closest double) and spans at least half as wide as they should be; check_knot_vector accepts it. check_knot_vector accepts every clamped vector of size at most 2^1000 and extent at least 2^-1000. Of vectors that run from 0 to 1 it accepts only sorted ones of the right length whose knots p and n are within 1.02e-8 and 1.02e-5 of 0 and 1; on other intervals it can accept a vector that decreases.", "quantifier": "every degree, count and vector of finite doubles", "why_tests_cant": "rounding: a test compares within a tolerance at a few points", "anchors": ["spline/algorithms/knots.py:generate_uniform", "spline/algorithms/knots.py:check_knot_vector", "spline/algorithms/knots.py:normalize"]}
{"id": "C84", "title": "the first guess of curve_inversion on doubles", "statement": "On IEEE doubles the 2n sampled parameters (n <= 2^48 control points) lie in [0,1], start at 0, increase strictly, end at 1 or at 1 - 2^-53, and are within 3*2^-53 relative error of i/(2n-1). For any object returning finite points of size at most 2^399 there, initial_guess_curve returns one of these samples, whose distance to the data point is at most (1 + 3(2d+6) 2^-53) times that of any other sample (plus 2^-518) if some sample is within 999999 of it; if all are at least 1000001 away it returns the first. It need not be the nearest sample exactly. For the curve over generate_uniform knots the distance meant can be that to the true curve, with an additional 90 (p+1)(2^-53 M + 2^-1075) for control points of size at most M <= 2^390.", "quantifier": "every object, data point, control polygon, degree and count within the stated ranges", "why_tests_cant": "rounding: a test compares within a tolerance at a few points", "anchors": ["fit/algorithms/parameterize.py:12-42"]}
{"id": "C85", "title": "the first guess of surface_inversion on doubles", "statement": "The same on IEEE doubles for initial_guess_surf: it returns a pair of samples whose distance to the data point is at most (1 + 3(2d+6) 2^-53) times that of any other pair (plus 2^-518) if some pair is within 999999 of it, and the first pair if all are at least 1000001 away; for the surface over generate_uniform knots the distance meant can be that to the true surface, with an additional 99 (p+q+1)(2^-53 M + 2^-1075).", "quantifier": "every object, data point, control net, degrees and counts within the stated ranges", "why_tests_cant": "rounding: a test compares within a tolerance at a few points", "anchors": ["fit/algorithms/parameterize.py:167-202"]}
{"id": "C86", "title": "returned parameters and parameterized data on doubles", "statement": "On IEEE doubles (at most 2^48 control points per direction) curve_inversion and surface_inversion return only NaN or doubles in [0,1], whatever the object does; parameters the object refuses are never returned by curve_inversion. For the library's surfaces, and for its curves given a derivatives method that fills three coordinates, all returned parameters are in [0,1], for any data point (also infinite or NaN), tolerances and iteration limit. parameterize_curve and parameterize_surface on finite 3-D data then return a permutation of the data rows, each with the parameters inverted for it, in ascending (lexicographic) order of the values.", "quantifier": "every object, data point or data set, tolerance and iteration limit", "why_tests_cant": "rounding: a test compares within a tolerance at a few points", "anchors": ["fit/algorithms/parameterize.py:curve_inversion", "fit/algorithms/parameterize.py:surface_inversion", "fit/algorithms/parameterize.py:parameterize_curve", "fit/algorithms/parameterize.py:parameterize_surface"]}
{"id": "C87", "title": "the VTK sampling grid on doubles", "statement": "On IEEE doubles, for every n_tri = n with 1 <= n <= 2^49, surf_to_vtk samples parameters t_0 < ... < t_n in [0,1], t_i within an ulp or so of i/n. Compute e = 1 + 1/n: if e/(1/n) > n+1 in double arithmetic the grid runs past the end and a surface that refuses parameters above 1 makes the call raise ValueError; otherwise, if e*n < n+1 the buffer is one row short and IndexError is raised; otherwise all (n+1)^2 points are sampled in order. Powers of two and the default 100 always work; 22 of the values 1..100 do not. For the library's surfaces over generated knots the triangulated parameters are the pairs (t_i, t_j), and the written points are within 11(p+q+1)(2^-53 M + 2^-1075) of the surface points there.", "quantifier": "every n_tri up to 2^49, surface, control net, triangulation and writer", "why_tests_cant": "rounding: a test compares within a tolerance at a few points", "anchors": ["fit/io/text.py:surf_to_vtk"]}
{"id": "C88", "title": "knot insertion on doubles", "statement": "On IEEE doubles (finite knots of size at most 2^1000, control points of size at most M <= 2^900, degree at most 2^40), inserting x r times with multiplicity + r <= degree, every other knot differing from x by more than 1.01e-8 + 1.01e-5 of its size, and the span search returning the half-open span: the new knot vector is the old one with x inserted r times, bit for bit; every new coordinate is finite and within r (12*2^-53 M + 4*2^-1075) of that of a control polygon which gives exactly the old curve; points away from x are copied unchanged; on clamped knots the curve of the rounded points differs from the old one by no more than that bound, at every parameter. A value of the domain not close to any knot needs no condition on the span search. Evaluated by single_point before and after one insertion, the computed points agree to 27 (p+1)(2^-53 M + 2^-1075). Exactness fails: on a curve whose control points coincide the new point can differ.", "quantifier": "every knot vector, control polygon, value, number of insertions and parameter within the stated ranges", "why_tests_cant": "rounding: a test compares within a tolerance at a few points", "anchors": ["spline/algorithms/knots.py:curve_knot_insertion"]}
{"id": "C89", "title": "the initial curve on doubles", "statement": "On IEEE doubles (coordinates of size at most M <= 2^1000, degree >= 1, degree+1 <= n <= 2^49) initialize_curve(start, end, degree, n) succeeds with n control points over generate_uniform(degree, n). Control point i is within 8*2^-53 M + 2(n+1) 2^-1075 of start + i/(n-1) (end - start) in every coordinate; the first has exactly the values of start, the last is end bit for bit. A coordinate in which start and end are equal or at least 2^-900 apart stays between them and moves in one direction. With n - degree <= 490000 and M <= 2^899, every computed curve point is within 15(p+1)(2^-53 M + 2^-1075) + 2(n+1) 2^-1075 of a point of the segment, at a fraction t(u) with t(0) = 0, t(1) = 1, t in [0,1] that depends on degree, n and u only. Control points are not always the doubles closest to the exact ones, and a coordinate whose ends are closer than 2^-900 can overshoot the end by half the distance.", "quantifier": "every start, end, degree and count within the stated ranges", "why_tests_cant": "rounding: a test compares within a tolerance at a few points", "anchors": ["fit/algorithms/initialization.py:initialize_curve", "spline/algorithms/knots.py:generate_uniform"]}
{"id": "C90", "title": "the ruled initial surface on doubles", "statement": "On IEEE doubles, for two boundaries of equal degree and count with fit curves of control points T, B (size at most M <= 2^889) and the bottom curve's clamped knots on [0,1] with spans at least 2^-1000 wide, set_init_surface (given a surface class that can be constructed) succeeds; point (i,j) of the net is within 8*2^-53 M + 2*2^-1075 of B_i + j/(nv-1) (T_i - B_i) in every coordinate and has exactly the values of B_i for j = 0. Every computed surface point is within 15(p+q+1)(2^-53 M + 2^-1075) of B(u) + phi(v) (T(u) - B(u)), with phi from 0 to 1 depending on v only; a u within 1.02e-6 of 1 must lie in the last span. The top row is not always T: its error is relative to M, so next to a bottom coordinate of 2^60 a top coordinate of 1 becomes 0.", "quantifier": "every pair of boundaries, degrees and counts within the stated ranges", "why_tests_cant": "rounding: a test compares within a tolerance at a few points", "anchors": ["fit/model/base_data.py:InteriorProblem.set_init_surface", "spline/model/bspline.py:BSplineSurface.single_point"]}
{"id": "C91", "title": "single basis functions on doubles", "statement": "On IEEE doubles, for degree p <= 2^40 and clamped knots in [0,1] whose first and last spans are not empty and whose distinct neighbours are at least 2^-500 apart, one_basis_function(p, U, i, x) succeeds for every index i of a basis function and every double x. For finite x the result is finite, not negative, exactly 0 where the B-spline is 0, exactly 1 for the first function at the first knot and the last one at the last knot, and differs from the B-spline b by at most 7p 2^-53 b + p(p+1) 2^-572. For infinite or NaN x it is 0. The results do not always sum to 1, and with knots 2^-1030 apart NaN and infinity occur inside the domain.", "quantifier": "every knot vector within the stated bounds, every index, every double", "why_tests_cant": "rounding: a test compares within a tolerance at a few points", "anchors": ["spline/algorithms/basis.py:one_basis_function"]}
{"id": "C92", "title": "partition-of-unity check of the fits on doubles", "statement": "On IEEE doubles, with knots as in C91 and at most 2^30 control points and rows: call a row stray if a parameter is outside the domain, infinite or NaN. If more than 12 rows in a million are stray (one among up to 83333 is enough), single_fit_curve and single_fit_surface raise ValueError. If at most 8 in a million are, the check passes, whatever the order in which the sums are added: an exception of the condition number is passed on, and with a solver that answers, the fit succeeds with as many control points, the first and last (for surfaces the whole border) unchanged bit for bit. So rounding alone never makes a fit of parameters inside the domain fail.", "quantifier": "every curve and surface, every list of rows, every solver", "why_tests_cant": "rounding: a test compares within a tolerance at a few points", "anchors": ["fit/algorithms/fitting.py:single_fit_curve", "fit/algorithms/fitting.py:single_fit_surface"]}
{"id": "C93", "title": "the adaptive fit on doubles", "statement": "On IEEE doubles, for every least-squares solver and every data: starting from a curve of degree p with p+1 control points and the knots 0...0 1...1, whenever fit_curve_knot_insertion(curve, data, num) returns (num <= p+65536), the returned curve has degree p, p + 2^k control points for the least k with p + 2^k >= num, exactly the knots 0, 1/2^k, 2/2^k, ..., 1 (ends repeated p+1 times; no rounding error), and its first and last control point are those of the start curve, bit for bit.", "quantifier": "every solver, data set, degree and target within the bound", "why_tests_cant": "rounding: a test compares within a tolerance at a few points", "anchors": ["fit/algorithms/fitting.py:fit_curve_knot_insertion", "spline/algorithms/knots.py:curve_knot_insertion"]}
{"id": "C94", "title": "a boundary problem from settings to fit, on doubles", "statement": "On IEEE doubles, for a BoundaryProblem without initial curve, with 3-coordinate start and end (size at most 2^1000), degree p >= 1, num_ctrlpts n >= p+1 (n <= p+65536 if adaptive, n <= 2^49 if fixed) and finite 3-D data: whenever fit() returns, for any least-squares solver, the fit curve has degree p; num_ctrlpts is its number of control points, which is n (fixed; uniform knots of generate_uniform) or p + 2^k as in C93 (adaptive; exact knots i/2^k); the first control point has the values of start, the last is end; parameterized_data holds every data point with the parameter found by point inversion on the fit curve, a double in [0,1], sorted by parameter and then by x, y, z.", "quantifier": "every problem with these settings, every solver", "why_tests_cant": "rounding: a test compares within a tolerance at a few points", "anchors": ["fit/model/base_data.py:BoundaryProblem.fit", "fit/algorithms/fitting.py:fit_curve_fixed_ctrlpts", "fit/algorithms/fitting.py:fit_curve_knot_insertion"]}
{"id": "C95", "title": "curves on doubles start and end at their end control points", "statement": "On IEEE doubles, a curve with clamped knots on [0,1] and finite control points evaluates at 0 to exactly its first control point if its first knot span has width w >= 2^-1000 with w*(1/w) == 1, and at 1 to exactly its last control point if the (rounded) width of the last span has that property. For uniform knots this holds when the number of spans is a power of two, so every adaptive fit (C94), and every fixed one with n - p a power of two, starts and ends exactly at the given points as long as the solver returns finite control points. It does not hold for every number of spans: with 21 spans a curve whose control points are all (1,1,1) does not end at (1,1,1).", "quantifier": "every curve within the stated conditions", "why_tests_cant": "rounding: a test compares within a tolerance at a few points", "anchors": ["spline/model/bspline.py:BSplineCurve.single_point", "spline/algorithms/knots.py:generate_uniform", "fit/model/base_data.py:BoundaryProblem.fit"]}
{"id": "C96", "title": "corners and edges of surfaces on doubles", "statement": "On IEEE doubles, for a surface with clamped knots on [0,1]: where the first or last spans in u and v have widths w with w*(1/w) == 1 (C95), the surface at the four corners equals the corner control points; and with control points of size at most 2^890, spans at least 2^-1000 wide and a parameter which if within 1.02e-6 of 1 lies in the last span, every point of an edge equals (==, coordinate by coordinate) the point computed for the curve whose control points are that row or column of the net. Without the condition on the widths a corner of a surface with all control points (1,1,1) can be another point.", "quantifier": "every surface within the stated conditions, every parameter along an edge", "why_tests_cant": "rounding: a test compares within a tolerance at a few points", "anchors": ["spline/model/bspline.py:BSplineSurface.single_point"]}
{"id": "C97", "title": "an interior problem from settings to fit, on doubles", "statement": "On IEEE doubles, for an InteriorProblem without initial surface whose boundaries have degree p, nu 3-D control points of size at most M and clamped knots on [0,1] with spans at least 2^-1000 wide, with degree q >= 1, nv >= q+1 control points across and finite 3-D data: whenever fit() returns, for any least-squares solver, the initial surface is the ruled net over the bottom knots and generate_uniform(q, nv); the fit surface keeps every control point of the border bit for bit, its bottom column has the values of the bottom control points, and every border point is within 8 ulp M of the straight line between the boundaries; parameterized_data holds every data point with the (u,v) found by inversion on the fit surface, doubles in [0,1], sorted by u, v, x, y, z; the parameterized data of both boundaries must have been there. If the first span of the v knots has width w with w*(1/w) == 1 (always when nv - q is a power of two), the bottom edge of the surface equals the bottom boundary's curve double for double at every parameter (outside the end tolerance strip unless in the last span); likewise for the last span the top edge is within 15(p+1)(ulp M + 2^-1075) of the curve of the top control points over the bottom knots. With 93 spans across the bottom edge does miss the bottom curve.", "quantifier": "every interior problem within the stated conditions, every solver", "why_tests_cant": "rounding: a test compares within a tolerance at a few points", "anchors": ["fit/model/base_data.py:InteriorProblem.fit", "fit/model/base_data.py:InteriorProblem.set_init_surface", "fit/algorithms/fitting.py:fit_surface", "spline/model/bspline.py:BSplineSurface.single_point"]}
{"id": "C98", "title": "derivatives of basis functions on doubles", "statement": "On IEEE doubles (knots in [0,1], degree p <= 2^40, x in a span of width g >= 2^-1000) basis_function_ders(s, x, p, U, n) returns p+1 rows of n+1 entries. Its first column is the result of basis_functions bit for bit (on any numbers, for any x and knots); the columns of order above p are exactly 0. If (2/g)^k <= 2^900 and p!/(p-k)! < 2^53, the column of order k <= p is finite and its entries differ from the true k-th derivatives of the basis functions by at most 12 p 2^-53 p!/(p-k)! (2/g)^k in total. On spans of width 2^-520 second derivatives are infinite; the derivatives do not always sum to 0.", "quantifier": "every knot vector, span, parameter, degree and order within the stated bounds", "why_tests_cant": "rounding: a test compares within a tolerance at a few points", "anchors": ["spline/algorithms/basis.py:basis_function_ders"]}
{"id": "C99", "title": "derivatives of curves on doubles", "statement": "On IEEE doubles, for a curve class whose derivatives method fills three coordinates (in the repository's class see C34), derivatives(x, order) with order >= 2 returns min(order, p)+1 rows; the first row is single_point(x) bit for bit; every coordinate of row k is finite and within 14 (p+1) W (2^-53 M + 2^-1075) of the true k-th derivative of the curve's polynomial piece at x, with W = p!/(p-k)! (2/g)^k for the width g of the span and M a bound on the control points, under the conditions of C98 and W M <= 2^980. Over generate_uniform(p, n) with 2 <= p <= 2^26, n - p <= 490000 and M <= 2^880 all this holds for every x in [0,1] with W = (4 p (n-p))^k, k <= 2. It is not exact: with all control points equal the derivatives can be positive.", "quantifier": "every curve, parameter and order within the stated bounds", "why_tests_cant": "rounding: a test compares within a tolerance at a few points", "anchors": ["spline/model/bspline.py:BSplineCurve.derivatives", "spline/algorithms/basis.py:basis_function_ders"]}
{"id": "C100", "title": "partial derivatives of surfaces on doubles", "statement": "On IEEE doubles, BSplineSurface.derivatives(x, y, ou, ov, normalize) returns (min(ou,p)+1)(min(ov,q)+1) rows; the first row is single_point(x, y) bit for bit, normalized or not; without normalization every coordinate of the row of orders (a,b) is finite and within 15 (p+q+1) Wa Wb (2^-53 M + 2^-1075) of the true mixed partial derivative of the surface's polynomial piece, with Wa = p!/(p-a)! (2/g)^a, Wb = q!/(q-b)! (2/h)^b for the widths g, h of the spans, under the conditions of C98 and Wa Wb M <= 2^970. Over uniform knots with 2 <= p, q <= 2^26, at most 490000 spans and M <= 2^780 this holds for all x, y in [0,1] with Wa = (4 p (nu-p))^a, Wb = (4 q (nv-q))^b, a, b <= 2. It is not exact: with all control points equal a derivative can be positive.", "quantifier": "every surface, pair of parameters and orders within the stated bounds", "why_tests_cant": "rounding: a test compares within a tolerance at a few points", "anchors": ["spline/model/bspline.py:BSplineSurface.derivatives", "spline/algorithms/basis.py:basis_function_ders"]}
{"id": "C101", "title": "requests when attributes are references", "statement": "In every history of a program that makes arrays, curves, boundaries and problems, assigns them, writes into arrays and calls methods: a request to a boundary or interior problem changes the problem's contents and has the outcome that the value model (C57-C59) gives for the contents its references have at that moment. Everything else that existed keeps its contents: all arrays, curves, surfaces, boundaries, other problems. data, start, end, top_boundary and bottom_boundary become the very object assigned, or a new array when a list was assigned, and stay when the request fails. set_init_curve makes a new curve with new arrays; fit makes a new curve with new control points and new parameterized data, and in fixed mode its knot array is that of the initial curve; the initial surface has new control points and v-knots and as u-knots the array of the bottom boundary's curve; a fitted surface holds both knot arrays of the initial surface. No curve belongs to two problems or is initial and fitted curve of one, likewise surfaces. Assigning to top_boundary or bottom_boundary anything but a boundary with a fitted curve raises (TypeError for another object, AttributeError for a bare boundary, ValueError without a fitted curve) and changes nothing; a new problem has no attribute set and is in fixed mode.", "quantifier": "every history, every request, every number system", "why_tests_cant": "rounding: a test compares within a tolerance at a few points", "anchors": ["fit/model/base_data.py:BoundaryProblem", "fit/model/base_data.py:InteriorProblem", "fit/algorithms/fitting.py:fit_curve_fixed_ctrlpts", "fit/algorithms/fitting.py:fit_curve_knot_insertion", "fit/algorithms/fitting.py:fit_surface"]}
{"id": "C102", "title": "changes through other references", "statement": "Writing into an array (same shape, else ValueError and no change) is seen through exactly the attributes that hold this array: knots and control points of curves and surfaces, data, start, end, parameterized data. Assigned data are not copied: the problem's data are the present contents of the array until data is assigned again. After a successful fit in fixed mode there is one array such that writing into it replaces the knots of both the initial and the fitted curve; the two are not independent. Assigning degree, ctrlpts or knot_vector of a curve object does to this object what the setter does and nothing to other curves, surfaces or problems; in particular the other curve of the same problem stays. In every history with any such changes the guards of C57 hold: degree >= 0, data of 2 or 3 columns, start and end of 2 or 3 coordinates, at least 4 (boundary) or 3 (interior) control points.", "quantifier": "every history, array and contents", "why_tests_cant": "rounding: a test compares within a tolerance at a few points", "anchors": ["fit/model/base_data.py:BoundaryProblem", "fit/algorithms/fitting.py:fit_curve_fixed_ctrlpts", "spline/model/base_geometry.py:SplineCurve.knot_vector"]}
{"id": "C103", "title": "an interior problem sees what its boundaries become", "statement": "After top_boundary (or bottom_boundary) of an interior problem was assigned a Boundary, the problem uses, until the next assignment, the contents the Boundary has at the time of each request, not those at the assignment. Hence the setter's check does not last: the Boundary can lose its fit_curve afterwards, and set_init_surface then raises AttributeError. After set_init_surface and fit, writing into the knot vector of the bottom boundary's curve replaces the u-knots of the initial and of the fitted surface and leaves their control points and v-knots.", "quantifier": "every history and later changes", "why_tests_cant": "rounding: a test compares within a tolerance at a few points", "anchors": ["fit/model/base_data.py:InteriorProblem.top_boundary", "fit/model/base_data.py:InteriorProblem.bottom_boundary", "fit/model/base_data.py:InteriorProblem.set_init_surface", "fit/algorithms/fitting.py:fit_surface"]}
{"id": "C104", "title": "smoothness at the knots", "statement": "In exact arithmetic: at a knot of multiplicity m the tables basis_function_ders returns for the spans on its two sides agree for every order k with k + m <= p (functions without a row counting as 0), and at order p - m + 1 they can differ. Hence for a curve without repeated interior knots whose last span is wider than the end tolerance (and a derivatives method that fills three coordinates), single_point and the rows of derivatives are one family of functions of u: row k + 1 is the derivative of row k at every u in (0,1), also at the knots, for k + 1 < p, and rows below p are continuous.", "quantifier": "every degree, knot vector, control polygon or net, data and parameter within the stated conditions, in exact arithmetic", "why_tests_cant": "a statement about all parameters, data sets or maps at once; tests sample finitely many", "anchors": ["spline/algorithms/basis.py:basis_function_ders", "spline/model/bspline.py:BSplineCurve.single_point", "spline/model/bspline.py:BSplineCurve.derivatives"]}
{"id": "C105", "title": "speed limits of curves and surfaces", "statement": "In exact arithmetic, if p |c_i - c_(i-1)| <= L_c (u_(i+p) - u_i) for the coordinates c of neighbouring control points, then |C(u) - C(v)| <= sqrt(L_0^2 + L_1^2 + L_2^2) |u - v| for the points single_point returns, for all u, v in [0,1] (distinct interior knots, last span wider than the end tolerance). For surfaces with such bounds A_c along u and B_c along v, two points differ by at most |A| |u - u'| + |B| |v - v'|.", "quantifier": "every degree, knot vector, control polygon or net, data and parameter within the stated conditions, in exact arithmetic", "why_tests_cant": "a statement about all parameters, data sets or maps at once; tests sample finitely many", "anchors": ["spline/model/bspline.py:BSplineCurve.single_point", "spline/model/bspline.py:BSplineSurface.single_point"]}
{"id": "C106", "title": "the first guess is near the closest point", "statement": "In exact arithmetic, with the speed limits of C105, initial_guess_curve returns a parameter whose point is at most |L| / (2 (2n - 1)) farther from the data point than any point of the curve (n control points), and initial_guess_surf one at most |A| / (2 (2nu - 1)) + |B| / (2 (2nv - 1)) farther than any point of the surface, compared with points for which distance plus this gap is below 1000000 (the search never accepts farther samples).", "quantifier": "every degree, knot vector, control polygon or net, data and parameter within the stated conditions, in exact arithmetic", "why_tests_cant": "a statement about all parameters, data sets or maps at once; tests sample finitely many", "anchors": ["fit/algorithms/parameterize.py:initial_guess_curve", "fit/algorithms/parameterize.py:initial_guess_surf"]}
{"id": "C107", "title": "different control points give different curves", "statement": "In exact arithmetic, two curves over the same distinct interior knots whose single_point results agree at p + 1 different parameters in every span have the same control points; the same for two surfaces agreeing on such a grid (p + 1 values of u per span for q + 1 values of v per span). Agreement at p parameters per span is not enough.", "quantifier": "every degree, knot vector, control polygon or net, data and parameter within the stated conditions, in exact arithmetic", "why_tests_cant": "a statement about all parameters, data sets or maps at once; tests sample finitely many", "anchors": ["spline/model/bspline.py:BSplineCurve.single_point", "spline/model/bspline.py:BSplineSurface.single_point"]}
{"id": "C108", "title": "the fit is determined by the data", "statement": "In exact arithmetic, if the parameters of the data hit every span p + 1 times (surfaces: on a grid as in C107), single_fit_curve and single_fit_surface return the same control points for every least-squares solver, and every other polygon with the same end points (net with the same border) has a strictly larger sum of squared errors. If the data are samples of a curve with these end points (a surface with this border), the fit interpolates them, and with so many samples it returns exactly the control points they came from, whatever the start values inside.", "quantifier": "every degree, knot vector, control polygon or net, data and parameter within the stated conditions, in exact arithmetic", "why_tests_cant": "a statement about all parameters, data sets or maps at once; tests sample finitely many", "anchors": ["fit/algorithms/fitting.py:single_fit_curve", "fit/algorithms/fitting.py:single_fit_surface"]}
{"id": "C109", "title": "bilinear nets give bilinear surfaces", "statement": "In exact arithmetic, if control point (i,j) is A + a_i D + b_j E + a_i b_j F with a_i, b_j the averages of the p (q) knots after the i-th (j-th), then single_point(u,v) is A + u D + v E + u v F on [0,1]^2, and derivatives (not normalized) returns the partial derivatives of this expression: D + v F, E + u F, F, and zero rows for all higher orders.", "quantifier": "every degree, knot vector, control polygon or net, data and parameter within the stated conditions, in exact arithmetic", "why_tests_cant": "a statement about all parameters, data sets or maps at once; tests sample finitely many", "anchors": ["spline/model/bspline.py:BSplineSurface.single_point", "spline/model/bspline.py:BSplineSurface.derivatives"]}
{"id": "C110", "title": "projections do not depend on the position in space", "statement": "In exact arithmetic, for every rotation or reflection followed by a translation: curve_inversion (given a derivatives method that fills three coordinates) and surface_inversion of a moved point on the moved curve or surface have the same outcome as before moving, exceptions included, for all tolerances and iteration limits. parameterize_curve and parameterize_surface raise the same exception, or return the moved rows with the same parameters, possibly in another order among rows of equal parameters. Scaling does change the parameters found: the tolerances are absolute lengths.", "quantifier": "every curve and surface of degrees >= 2 with distinct interior knots, every data set and rigid motion", "why_tests_cant": "a statement about all parameters, data sets or maps at once; tests sample finitely many", "anchors": ["fit/algorithms/parameterize.py:curve_inversion", "fit/algorithms/parameterize.py:surface_inversion", "fit/algorithms/parameterize.py:parameterize_curve", "fit/algorithms/parameterize.py:parameterize_surface"]}
{"id": "C111", "title": "fits commute with affine maps", "statement": "In exact arithmetic, with data as dense as in C108, mapping the coordinates of the data and of the start curve (or surface) by any affine map, also a singular one, maps the control points returned by single_fit_curve (single_fit_surface) by the same map, whichever least-squares solvers are used for the two fits.", "quantifier": "every degree, knot vector, control polygon or net, data and parameter within the stated conditions, in exact arithmetic", "why_tests_cant": "a statement about all parameters, data sets or maps at once; tests sample finitely many", "anchors": ["fit/algorithms/fitting.py:single_fit_curve", "fit/algorithms/fitting.py:single_fit_surface"]}
{"id": "C112", "title": "curves and surfaces follow the shape of their control points", "statement": "In exact arithmetic (distinct interior knots on [0,1], last span wider than the end tolerance): if l (u_(i+p) - u_i) <= p (c_i - c_(i-1)) <= L (u_(i+p) - u_i) for the c-th coordinates of neighbouring control points, then l (v - u) <= C_c(v) - C_c(u) <= L (v - u) for all 0 <= u <= v <= 1 and the points single_point returns. In particular a coordinate that grows along the control points grows along the curve, and with l > 0 no point is taken twice, at any two parameters the method accepts. If those quotients do not decrease with i (degree >= 2), the coordinate is a convex function of the parameter. Surfaces have the same bounds in u and in v. With a last span narrower than the tolerance a growing coordinate can fall.", "quantifier": "every degree, knot vector, control polygon or net, data and parameter within the stated conditions, in exact arithmetic", "why_tests_cant": "a statement about all parameters, data sets or maps at once; tests sample finitely many", "anchors": ["spline/model/bspline.py:BSplineCurve.single_point", "spline/model/bspline.py:BSplineSurface.single_point"]}
{"id": "C113", "title": "curves run backwards and surfaces with exchanged parameters", "statement": "In exact arithmetic, with distinct interior knots on [0,1] whose first and last spans are wider than twice the end tolerance: the curve with the knots 1 - U in reverse order and the control points in reverse order has at 1 - u exactly the point the given curve has at u. The surface with transposed net, exchanged degrees and exchanged knots has at (v,u) the point of the given one at (u,v); reversing the net and the knots in one direction gives its point at (1 - u, v), or (u, 1 - v). A first span narrower than the tolerance breaks this: points of the reversed curve differ.", "quantifier": "every degree, knot vector, control polygon or net, data and parameter within the stated conditions, in exact arithmetic", "why_tests_cant": "a statement about all parameters, data sets or maps at once; tests sample finitely many", "anchors": ["spline/model/bspline.py:BSplineCurve.single_point", "spline/model/bspline.py:BSplineSurface.single_point"]}
{"id": "C114", "title": "fits do not depend on the order of rows or the direction of parameters", "statement": "In exact arithmetic, with data as dense as in C108 and any two least-squares solvers: single_fit_curve and single_fit_surface return the same control points for the rows in any order; fitting the reversed start curve (control points and knots as in C113) to the rows with parameters 1 - u, in any order, gives the reversed control points; and the same holds for surfaces when u or v is reversed, or u and v are exchanged (transposed net).", "quantifier": "every degree, knot vector, control polygon or net, data and parameter within the stated conditions, in exact arithmetic", "why_tests_cant": "a statement about all parameters, data sets or maps at once; tests sample finitely many", "anchors": ["fit/algorithms/fitting.py:single_fit_curve", "fit/algorithms/fitting.py:single_fit_surface"]}
{"id": "C115", "title": "surfaces are smooth", "statement": "In exact arithmetic, with distinct interior knots on [0,1] in both directions and last spans wider than the end tolerance: there is one family D(a,b) of functions of (u,v) such that BSplineSurface.single_point returns D(0,0) everywhere, row (a,b) of derivatives (normalize False) is D(a,b) for all orders and all parameters, D(a+1,b) is the partial derivative of D(a,b) in u at every 0 < u < 1, also at knots, when a+1 < degree_u, likewise in v, and D(a,b) is jointly continuous when a < degree_u and b < degree_v. At order degree_u this ends: the row jumps at an interior knot.", "quantifier": "every degree, knot vector, control polygon or net, data and parameter within the stated conditions, in exact arithmetic", "why_tests_cant": "a statement about all parameters, data sets or maps at once; tests sample finitely many", "anchors": ["spline/model/bspline.py:BSplineSurface.derivatives", "spline/model/bspline.py:BSplineSurface.single_point"]}
{"id": "C116", "title": "derivatives of reversed and exchanged curves and surfaces", "statement": "In exact arithmetic, with distinct interior knots on [0,1] whose first and last spans are wider than twice the end tolerance: row k of the derivatives of the reversed curve (C113) at 1 - u is (-1)^k times row k at u, for k < degree at every u and for k = degree at every u that is no interior knot (derivatives with its three coordinates filled; the method as written raises, C34). For surfaces, with normalize True as well as False: row (b,a) of the surface with exchanged parameters at (v,u) is row (a,b) at (u,v), and reversing u (or v) multiplies row (a,b) by (-1)^a (or (-1)^b), with the same exception at knots for a = degree. At an interior knot the top row of the reversed curve differs from that rule.", "quantifier": "every degree, knot vector, control polygon or net, data and parameter within the stated conditions, in exact arithmetic", "why_tests_cant": "a statement about all parameters, data sets or maps at once; tests sample finitely many", "anchors": ["spline/model/bspline.py:BSplineCurve.derivatives", "spline/model/bspline.py:BSplineSurface.derivatives", "spline/model/bspline.py:BSplineSurface.single_point"]}
{"id": "C117", "title": "points and derivatives whatever the order of additions", "statement": "On IEEE doubles, let every dot product of @ be computed in any order and bracketing of its additions, different for every dot product, and with any of its multiplications and additions fused. Then the points of single_point of curves and surfaces and the rows of derivatives (surfaces: normalize False; curves: with three coordinates filled, C34) still satisfy the bounds of C81, C82, C99 and C100 under the same conditions, and the ends of a curve and the corners of a surface are still exactly the control points under the conditions of C95 and C96 (control points of size at most 2^1023). Sums from left to right, from right to left and by fused multiply-adds are of this kind; the last bits of the results do depend on the choice.", "quantifier": "every order of every dot product, every finite double parameter, control net and knot vector within the stated ranges", "why_tests_cant": "tests run with one numpy build; another build adds in another order", "anchors": ["spline/model/bspline.py:BSplineCurve.single_point", "spline/model/bspline.py:BSplineSurface.single_point", "spline/model/bspline.py:BSplineCurve.derivatives", "spline/model/bspline.py:BSplineSurface.derivatives"]}
{"id": "C118", "title": "curve inversion converges", "statement": "In exact arithmetic (with a derivatives method that fills three coordinates, C34): let (C - Q).C' vanish at r and let its derivative have size at least m > 0 on the parameters within d of r. If that derivative varies there by at most t m, t < 1, and the initial guess is within d, curve_inversion returns after k <= max_iter + 2 Newton steps a parameter u in [0,1] with |u - r| <= t^k |guess - r|. If the derivative has Lipschitz constant L there with L d <= m/2, then |u - r| <= 2^-(2^k - 1) |guess - r|: the number of correct digits doubles with each step. Either k = max_iter + 2, or u passes the distance or angle test, or |C'(u)| |u - r| <= 2 eps1, or the next Newton iterate passes the test. For a curve of degree at least 3 with distinct interior knots on [0,1] and a last span wider than the end tolerance, every 0 < r < 1 where (C - Q).C' = 0 and its derivative is not 0 has such a neighbourhood, so every initial guess in it leads to r at this rate.", "quantifier": "every curve, point, tolerance, iteration limit and guess within the stated conditions", "why_tests_cant": "a statement about all parameters, data sets or maps at once; tests sample finitely many", "anchors": ["fit/algorithms/parameterize.py:curve_inversion", "fit/algorithms/parameterize.py:initial_guess_curve"]}
{"id": "C119", "title": "surface inversion converges for points on the surface and may diverge for others", "statement": "In exact arithmetic, for a surface of degrees at least 3 with distinct interior knots on [0,1] and last spans wider than the end tolerance, and a point Q = S(a,b) on it, 0 < a, b < 1, where the partial derivatives are linearly independent: for every 0 < t < 1 there is a distance within which every initial guess leads surface_inversion after k <= max_iter + 1 steps to a pair (u,v) in the unit square at distance at most t^k times that of the guess from (a,b) (larger of the two coordinate differences), and k = max_iter + 1 or a stopping test held. For points off the surface this is false, because every step but the first uses the derivatives of the iterate before: for the channel (u - 1/2, v - 1/2, (u - 1/2)^2) and Q = (0, 0, 3/8), nearest at (1/2, 1/2) with a regular system there, from guesses as close as one likes two steps at least double the distance from (1/2, 1/2). On doubles, with the default tolerances and 100 steps, the result for this channel as a 3 x 3 biquadratic surface is farther from Q than the initial guess.", "quantifier": "every surface, point on it, tolerance, iteration limit and guess within the stated conditions; explicit failing inputs", "why_tests_cant": "a statement about all parameters, data sets or maps at once; tests sample finitely many", "anchors": ["fit/algorithms/parameterize.py:surface_inversion", "fit/algorithms/parameterize.py:initial_guess_surf"]}
{"id": "C120", "title": "whole fits move with the data", "statement": "In exact arithmetic (with the working curve class of C34, degrees at least 2, and for the adaptive fit at most degree + 65536 control points asked for): for every rotation or reflection followed by a translation and any two least-squares solvers, fit_curve_knot_insertion, fit_curve_fixed_ctrlpts, fit_surface, the fit of a boundary problem without an initial curve and the fit of an interior problem without an initial surface, run on the moved start curve (or surface, end points or boundary curves) and the moved data, return the moved control points over the same knots (problem objects also store the same parameters with the moved points), or fail with the same error, provided every projection of the data on the way holds degree + 1 different parameters in each span (for surfaces on a grid as in C107). For sparse data the claim is false: with one data point near the start segment the interior control point becomes the origin, before and after a shift by 1.", "quantifier": "every degree, data set, rigid motion and pair of least-squares solvers within the stated conditions; explicit failing input", "why_tests_cant": "a statement about all parameters, data sets or maps at once; tests sample finitely many", "anchors": ["fit/algorithms/fitting.py:fit_curve_knot_insertion", "fit/algorithms/fitting.py:fit_curve_fixed_ctrlpts", "fit/algorithms/fitting.py:fit_surface", "fit/model/base_data.py:BoundaryProblem.fit", "fit/model/base_data.py:InteriorProblem.fit"]}
{"id": "C121", "title": "infinities and NaN are treated alike in exact and in double arithmetic", "statement": "Let every double stand for the real number, infinity or NaN it denotes. Then comparisons, finiteness tests, int and ceil, sign change and absolute value, the knot test of validate_knot and np.max and np.min of a vector agree for all doubles with those of the exact arithmetic; so do sums, differences, products and quotients with an infinite or NaN operand, quotients by +0 and square roots of negative, infinite or NaN operands. The exceptions are division by -0 (inf / -0 is -inf against inf in the exact arithmetic, which has one zero) and overflow (a sum of two finite doubles may be inf).", "quantifier": "all doubles and all vectors of doubles; explicit exceptions", "why_tests_cant": "a statement about all 2^64 doubles (and pairs of them); tests sample finitely many", "anchors": ["spline/util/validation.py:validate_knot", "spline/algorithms/knots.py:normalize", "spline/algorithms/knots.py:find_span"]}
{"id": "C122", "title": "numbers as text", "statement": "float(s), as the text readers use it, accepts (up to surrounding blanks, capital letters and single underscores between digits) exactly an optional sign followed by inf, infinity, nan or digits with an optional point and an optional signed decimal exponent, at least one digit being present; everything else raises ValueError. The result is the decimal number rounded to the nearest double (ties to the even one), an infinity if that exceeds the range, and a zero of the written sign if it rounds to zero. '{}'.format(x), as the writers use it, is for every finite non-zero double a decimal that rounds to x with as few digits as any decimal that does (at most 17), the one closest to x among those, with an even last digit on a tie (unless the digit is 1), written without needless zeros and with an exponent exactly if it is below 1/10000 or at least 10^16 in size; zeros, infinities and NaN are written 0.0, -0.0, inf, -inf, nan. float('{}'.format(x)) is x for every double, so the file properties C61 and C66, stated for faithful conversions, hold for Python's own. int(s) accepts exactly an optional sign and digits, up to blanks around and single underscores between digits, and returns the number written. The tolerances 1e-5, 1e-6 and 1e-8 written in the code are the doubles the model computes with.", "quantifier": "all doubles and all texts", "why_tests_cant": "a statement about all 2^64 doubles and all texts; tests sample finitely many", "anchors": ["fit/io/text.py:read_surf_from_txt", "fit/io/text.py:read_curve_from_txt", "fit/io/text.py:write_surface_to_txt", "fit/io/text.py:write_curve_to_txt"]}
{"id": "C123", "title": "the order of the data points does not matter", "statement": "For points of three coordinates, in exact arithmetic and on doubles (infinities and NaN included) with no coordinate equal to -0: giving the same points in another order, parameterize_curve and parameterize_surface return the identical array, fit_curve_knot_insertion, fit_curve_fixed_ctrlpts and fit_surface the identical curve or surface, and BoundaryProblem and InteriorProblem objects end parameterize() and fit() with the identical initial and fitted geometry, parameterized data and number of control points, or neither order succeeds - for every curve, surface, curve class and solver, repeated points included. parameterize_curve and parameterize_surface do so also if dot products, norms and solutions of the 2x2 system have any values at all, the same for every point. On doubles with both +0 and -0 among the coordinates it fails: two points that differ only in the sign of a zero stay in the order given. Apart from such zeros the array does not depend on the sorting algorithm either: there is only one way to sort the records.", "quantifier": "all data arrays with three columns and all permutations of their rows, all geometries, all solvers, exact numbers and doubles", "why_tests_cant": "it speaks of all permutations of all data sets on all curves; a test compares a few orders of one data set, and never meets the ties that a lexicographic sort resolves by the given order", "anchors": ["fit/algorithms/parameterize.py:parameterize_curve", "fit/algorithms/parameterize.py:parameterize_surface", "fit/algorithms/fitting.py:fit_curve_knot_insertion", "fit/algorithms/fitting.py:fit_curve_fixed_ctrlpts", "fit/algorithms/fitting.py:fit_surface", "fit/model/base_data.py:BoundaryProblem.fit", "fit/model/base_data.py:InteriorProblem.fit"]}
{"id": "C124", "title": "projections whatever the order of additions", "statement": "On IEEE doubles, let every dot product and norm in parameterize.py and every dot product in single_point be computed in any order of its additions, different for each, and with any of its multiplications and additions fused. Then the first guesses of initial_guess_curve and initial_guess_surf are samples nearest to the data point up to the bounds of C84 and C85, under the same conditions, also for library curves and surfaces with uniform knots. For dot products and solutions of the 2x2 system of any value at all: curve_inversion and surface_inversion end within max_iter + 2 and max_iter + 1 rounds, every parameter they return is NaN or in [0,1], and for library objects it is in [0,1] (surfaces: if a dot product with a NaN operand is NaN); parameterize_curve and parameterize_surface return the data with these parameters, sorted by parameters and then coordinates. Which sample is nearest can depend on the order of the additions, and a surface parameter may be NaN if dot products may drop NaN.", "quantifier": "every order of every dot product, every finite double parameter, control net and knot vector within the stated ranges", "why_tests_cant": "tests run with one numpy build; another build adds in another order", "anchors": ["fit/algorithms/parameterize.py:initial_guess_curve", "fit/algorithms/parameterize.py:curve_inversion", "fit/algorithms/parameterize.py:parameterize_curve", "fit/algorithms/parameterize.py:initial_guess_surf", "fit/algorithms/parameterize.py:surface_inversion", "fit/algorithms/parameterize.py:parameterize_surface"]}
{"id": "C125", "title": "normalized derivative vectors", "statement": "BSplineSurface.derivatives with normalize=True raises exactly when, and what, it raises with normalize=False, and returns the same array except that every row but the first whose norm is not close to 0 is divided by its norm. On IEEE doubles, for rows with components of size at most 2^400 and Euclidean length N (orders and degrees not negative): if N is at least 1.01e-8 the returned row has length 1 within 14 units of rounding (2^-53), no component outside [-1,1], and each component within 13 units of rounding (relative, plus 2^-1075) of x/N; a row along a coordinate axis becomes exactly 1 or -1 in that coordinate and 0 in the others; if N is at most 0.99e-8 the row is returned unchanged. Under the conditions of C100 each returned row is within 14 units of rounding plus 3 E / T of the unit vector of the true partial derivative, T its length (between 2.03e-8 and 2^399) and E <= T/4 the bound of C100. Lengths are not exactly 1 in general, and rows of finite components beyond 2^512 become zero vectors.", "quantifier": "every surface, parameter pair and orders; every finite double parameter, control net and knot vector within the stated ranges", "why_tests_cant": "the tests compare one surface's derivatives with a tolerance; the ranges and the exact cases hold for all doubles", "anchors": ["spline/model/bspline.py:BSplineSurface.derivatives"]}
{"id": "C126", "title": "normalized derivative vectors whatever the order of additions", "statement": "On IEEE doubles, let every dot product and every norm in BSplineSurface.derivatives be computed in any order of its additions, different for each (also for the two norms of one row), and with any of its multiplications and additions fused. Then C125 holds with the same bounds: normalize=True raises exactly when, and what, normalize=False raises; the first row and rows of length at most 0.99e-8 are returned unchanged; rows of length N at least 1.01e-8 (components at most 2^400) have length 1 within 14 units of rounding, no component outside [-1,1], each component within 13 units of rounding of x/N, and are exactly 1 or -1 along an axis; under the conditions of C117 each row is within 14 units of rounding plus 3 E / T of the unit vector of the true partial derivative. The digits of a normalized row can depend on the order.", "quantifier": "every order of every dot product and norm, every finite double parameter, control net and knot vector within the stated ranges", "why_tests_cant": "tests run with one numpy build; another build adds in another order", "anchors": ["spline/model/bspline.py:BSplineSurface.derivatives"]}
{"id": "C127", "title": "fits whatever the order of additions", "statement": "Let every dot product, norm and matrix product used in a fit have any value at all, and the solver too: a curve that fit_curve_fixed_ctrlpts returns keeps degree, knots, number of control points and both end points; a surface that fit_surface returns keeps degrees, knots, numbers and the border of its net; fit_curve_knot_insertion ends within num rounds, and on doubles, started from degree + 1 control points and knots 0 and 1, its result has degree + 2^k control points, k the smallest number with at least num of them, both ends kept and knots exactly at the multiples of 2^-k. The fits do not depend on the order of the data points, as in C123. On doubles, if the sums of the partition-of-unity check are added in any order, different for each, the check accepts and refuses under the conditions of C92, and it accepts every projection to a library curve with knots on [0,1] whose distinct neighbours differ by at least 2^-500, so that with a solver that answers the round succeeds. The digits of the control points do depend on the order of additions.", "quantifier": "every value of every dot product, norm and product, every order of every sum, every solver; every finite double parameter, control net and knot vector within the stated ranges", "why_tests_cant": "tests run with one numpy build; another build adds in another order", "anchors": ["fit/algorithms/fitting.py:fit_curve_knot_insertion", "fit/algorithms/fitting.py:fit_curve_fixed_ctrlpts", "fit/algorithms/fitting.py:fit_surface", "fit/algorithms/fitting.py:single_fit_curve", "fit/algorithms/fitting.py:single_fit_surface"]}
