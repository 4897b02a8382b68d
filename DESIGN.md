# A machine-checked model of PySplineFit (Coq 8.16.1)

## 1. Approach

The Python code is modelled function by function as total Gallina functions in
an exception monad (`res A = Ok a | Err exn | Diverge`, `Py.v`), with Python
indexing (negative indices wrap around, `IndexError` otherwise), Python slices,
`range` loops and `while` loops on fuel.  Running out of fuel is `Diverge`; for
every fuelled function a theorem says which fuel is enough, or that `Diverge`
means that no fuel is (C04, C45, C47, C55, C64).

All numeric code is written once, over a record of number operations (`Num`),
and instantiated twice:

* `Exact` — real numbers extended by `+inf`, `-inf`, `NaN` with IEEE rules for
  the special values, *no rounding*, one unsigned zero.  `x/0` is `inf` or `NaN`
  as in numpy; comparisons with `NaN` are false.  Statements about values
  (a sum is the B-spline sum, a fit is optimal) are about this instance.
* `Binary64` — Coq's primitive IEEE 754 doubles.  Refutations and executable
  examples are computed in this instance, with the rounding of the real program.
  C79–C100, C117 and C124–C127 are statements about this instance: `value : float -> R` (SpecB64.v)
  is the real number a double stands for, and the results of the code on doubles
  are compared with the mathematical objects at those values.

Statements that need no arithmetic law (control flow, shapes, errors, histories,
files, imports) are proved for every `Num`, hence for both.

Specifications are in `Spec*.v`; they mention no model function.  They contain
the Cox–de Boor recursion, curve and tensor-product sums, clamped knot vectors,
derivatives (`nth_derivative`, through the standard library's
`derivable_pt_lim`), numpy's closeness, constrained least squares, file layouts
and tables of import outcomes.

## 2. Files

| file | content |
|---|---|
| `Py.v`, `Num.v` | Python/numpy run-time pieces; number systems |
| `Model*.v` | the model; each definition cites the lines of /repo it models |
| `Spec*.v` | specifications |
| `Math*.v` | mathematics about the specifications only |
| `PyLemmas.v`, `Proof*.v` | lemmas about the model |
| `Examples.v` | data used in examples |
| `Prop*.v` | property theorems: statement, `exact lemma`, `Print Assumptions`, and beside each an example that meets its hypotheses |
| `RepoTests.v` | the repository's own unit tests, evaluated in the model |

| model file | models |
|---|---|
| `ModelKnots.v` | spline/algorithms/knots.py, spline/util/validation.py |
| `ModelBasis.v` | spline/algorithms/basis.py |
| `ModelCurve.v` | SplineGeometry, SplineCurve (base_geometry.py), BSplineCurve (bspline.py), classes as evidently intended |
| `ModelSurface.v` | SplineSurface (base_geometry.py), BSplineSurface (bspline.py), as evidently intended |
| `ModelNested.v` | the same classes exactly as base_geometry.py is indented |
| `ModelInit.v` | fit/algorithms/initialization.py |
| `ModelParam.v` | fit/algorithms/parameterize.py |
| `ModelDot.v` | the evaluation methods of spline/model/bspline.py again, with the dot products of `@` left open |
| `ModelDotParam.v` | fit/algorithms/parameterize.py again, with dot products, norms and the 2x2 solve left open |
| `ModelDotUnit.v` | BSplineSurface.derivatives with `normalize`, with dot products and norms left open |
| `ModelFit.v` | fit/algorithms/fitting.py |
| `ModelIO.v` | fit/io/text.py, base_io.py, curve.py |
| `ModelFloat.v` | `float(s)` and `'{}'.format(x)` for doubles, as used by fit/io/text.py |
| `ModelData.v` | fit/model/base_data.py |
| `ModelRef.v` | fit/model/base_data.py and fit/algorithms/fitting.py again, attributes being references into a store |
| `ModelImport.v` | the top-level statements of every module, and Python's import |

## 3. Plan and method per property

| id | model | method |
|---|---|---|
| C01–C05 | `find_span` with fuelled bisection | loop invariant on (low, high, mid); fixed points of the loop for divergence; witnesses |
| C06–C08 | `normalize`, `check_knot_vector` | list induction, real arithmetic |
| C09–C10 | `generate_uniform` over numpy's `linspace` | index computation |
| C11 | `find_multiplicity` | counting |
| C12–C15 | `curve_knot_insertion` | loop invariants to a pure refinement step; Boehm's identity by induction on the degree; witnesses |
| C16–C20 | `basis_functions` | invariant: after round j the array holds the degree-j values |
| C21–C23 | `one_basis_function` | triangular table invariant |
| C24–C26 | `basis_function_ders` | table invariants, derivative recursion, `derivable_pt_lim` |
| C27 | `one_basis_function_ders` | as C25 |
| C28–C34 | BSplineCurve methods | composition of C01–C27; continuity across knots |
| C35–C38 | attribute state machine, class-attribute store | induction over request lists |
| C39–C42 | BSplineSurface methods | as curves, in two directions |
| C43 | `initialize_curve` | composition |
| C44–C48 | inversion algorithms over an arbitrary curve/surface object | induction on the iteration count |
| C49–C50 | `parameterize_*`, structured sort | permutation and sortedness |
| C51–C56, C65 | fit algorithms, `lstsq` as a parameter | splitting fixed/free columns; normal equations; loop over rounds |
| C57–C59, C67, C70 | BoundaryProblem/InteriorProblem state machines | induction over histories |
| C60–C62, C66 | file system as a map from names to contents, float formatting as a parameter | string lemmas |
| C63 | `surf_to_vtk` grid | exact: arithmetic; Binary64: witnesses |
| C64 | imports as name resolution over the modules' top-level statements | footprint lemma (an import reads and writes only the modules it can reach), then all reachable states of each footprint by computation, lifted to every import sequence |
| C68 | the classes as indented | induction over request lists |
| C69 | Data and Boundary objects | induction over request lists |
| C71, C76 | derivatives filled in three coordinates; linear precision | C25 in each coordinate; Greville abscissae by induction on the degree |
| C72–C75 | projection and fits from end to end, curve/surface classes as fit/ expects them | every intermediate number is finite except for one division or inversion; samples are found at distance 0 |
| C77–C78 | inversion iterate by iterate, against a relational description (SpecNewton.v) that mentions no model function | induction on the number of steps taken; derivatives of half the squared distance from C71 |
| C79–C83 | span search, basis, curve and surface points, knot vectors on doubles | Flocq's correctness theorems for the primitive operations; comparisons are exact, so the search is that of C01; backward induction on the rounding errors of the basis rounds; forward error of left-to-right dot products |
| C84–C86 | first guesses, returned parameters and sorted data on doubles | relative error of the computed norm; the last sample by the exactness of the nearest double; NaN propagates to the next evaluation, which refuses it |
| C87 | the VTK grid on doubles: which n_tri work | exact ceiling and truncation; both counts are within 1/2 of n+1, so each is n+1 or one off, decided by one comparison |
| C88 | knot insertion on doubles | the weight and its complement are computed in [0,1] with 4 and 5 ulps error whatever the spacing of the knots; one round adds 12 ulps of M; the exact rows are those of C13, and the basis over the refined knots sums to at most 1 |
| C89 | initial curve on doubles | PropB64Init.v: np.linspace on doubles (the two divisions orders of numpy included) is within 8 ulps of M, exact at both ends, monotone unless the ends are closer than 2^-900; with C81 and the partition of unity the curve points follow |
| C90 | ruled surface on doubles | the net from B_i + j/(nv-1) (T_i - B_i) as written (8 ulps of M, exact in row 0), then C82 and the partition of unity; the top row is refuted to be exact |
| C91 | one_basis_function on doubles | PropB64One.v: every entry of the triangular table is followed level by level, relative error 7 per level, underflow carried as an absolute term; zeros stay exact zeros, the ends are exactly 1; refuted: sum exactly 1, and any claim without a lower bound on the knot distance |
| C92 | partition-of-unity check on doubles | the row sums and their total, in any order of addition (`added64`), against the number of rows with the rounded tolerance of np.isclose; curves and surfaces; then the outcome of the fit for every solver |
| C93 | adaptive fit on doubles | PropB64Adapt.v: at every round the knots are multiples of 2^-k exactly (midpoints and comparisons are exact), insertion and the fit leave the end control points alone; any solver |
| C94 | boundary fit on doubles | the initial curve of C89, then C93 or the fixed fit, then the parameterization of C85–C86 |
| C95 | exact curve ends on doubles | at an end of the domain all entries of the basis table are exactly 0 or 1 when w(1/w) = 1 for the width w of the span; sums with one weight 1 and the others 0 are exact; refuted for 21 uniform spans |
| C96 | surface corners and edges on doubles | the same in one direction; the sums of the other direction are those of the curve up to the sign of zeros; refuted without the condition on the widths |
| C97 | interior fit on doubles | the initial surface of C90, the kept border of the fit, the edges of C96 and the parameterization of C86–C87; refuted for 93 spans across |
| C98 | basis derivatives on doubles | PropB64Ders.v: ProofDersAny.v computes the whole table on any numbers; the alternating coefficients a_{k,j} are bounded by binomials over powers of the span width, their rounding errors follow level by level; double sum over j and the basis functions; refuted: no loss on narrow spans, sum exactly 0 |
| C99 | curve derivatives on doubles | C98's column times the control points, dot products with weights of either sign; row 0 is the point on any numbers; refuted to be exact |
| C100 | surface derivatives on doubles | the same twice; entry 0 is the point on any numbers, normalised or not; refuted to be exact |
| C101 | requests on references | ProofRef.v–ProofRef6.v: a simulation: in every well-formed store each method of `ModelRef.v` does to the contents what `ModelData.v` does to values, allocates, and leaves what existed; well-formedness in every history; addresses of what is stored and made |
| C102 | writes through references | reading functions after a replacement in the store; the knot array shared by a fixed fit; shapes are invariant, hence the guards of C57; refuted: copies on assignment, independence of initial and fitted curve |
| C103 | boundaries of interior problems | the reference to the boundary stays until assigned again; u-knots of the surfaces are the bottom curve's array; refuted: the check of the setter stays true |
| C104 | smoothness at knots | tables of neighbouring spans agree up to order p - multiplicity; rows of derivatives are successive derivatives on (0,1); refuted: one order more |
| C105 | speed limits | Lipschitz constants of single_point from differences of control points, curves and surfaces |
| C106 | first guess | distance of the first guess at most the speed limit over twice the number of sample intervals above the closest point |
| C107 | uniqueness of control points | agreement at p+1 parameters per span; refuted: p parameters |
| C108 | uniqueness of fits | independent of the solver, strictly best, recovers sampled curves and surfaces |
| C109 | bilinear precision | points and all partial derivatives of nets bilinear in the averaged knots |
| C110 | rigid motions | inversions unchanged, parameterize moves the rows; refuted: scaling |
| C111 | affine maps | fits commute with every affine map |
| C112 | rates and convexity | a coordinate of the curve changes at rates between those of the control points, growing coordinates make the curve injective, convex control values a convex coordinate; needs the wide last span |
| C113 | reversal and exchange | mirrored knots and reversed control points give the curve backwards; nets reversed or transposed likewise; needs wide first and last spans |
| C114 | symmetric fits | fits ignore the order of rows and commute with reversal and exchange |
| C115 | smooth surfaces | derivative rows are the partial derivatives of the surface, also at knots; jump at top order |
| C116 | symmetric derivatives | rows of reversed and exchanged curves and surfaces; exception at knots for the top order |
| C117 | any order of additions | bounds of C81, C82, C99, C100 and exact ends of C95, C96 whatever the order of additions in `@`, with or without fused multiply-adds; refuted: equal results |
| C118 | curve inversion converges | linear, with a Lipschitz bound quadratic, convergence to regular zeros of the slope; every regular zero of a curve of degree >= 3 has such a neighbourhood |
| C119 | surface inversion | convergence at any rate for points on the surface; refuted off the surface: moves away from the nearest point, also on doubles with the default arguments |
| C120 | whole fits move with the data | rigid motions commute with both curve fits, the surface fit and boundary and interior problems if every projection is dense; refuted for sparse data |
| C121 | infinities and NaN | comparisons, int, ceil, max, min and arithmetic with special operands agree between doubles and exact arithmetic; refuted: division by -0, overflow |
| C122 | numbers as text | `float(s)` rounds correctly and accepts exactly Python's literals; `'{}'.format(x)` is the shortest text that reads back, in the usual form; round trip for every double; `int(s)` likewise |
| C123 | order of the data points | `parameterize_*`, the fits and both problem classes give the identical result for every order of the points, exactly and on doubles without -0; `parameterize_*` also with dot products, norms and 2x2 solutions of any values; refuted with -0 |
| C124 | inversion for any order of additions | first guesses of C84, C85 with the same bounds whatever the order of additions in norms and points; range and sorting of C86 and the number of rounds for arithmetic of any kind; refuted: equal guesses; NaN if dot products may drop it |
| C125 | normalized surface derivatives on doubles | any numbers: `normalize` changes only rows 1, 2, ... not close to 0, and no exception; doubles: rows longer than 1.01e-8 become unit vectors up to 14 roundings with all components in [-1,1], exactly ±1 along an axis, shorter than 0.99e-8 unchanged; close to the unit vectors of the true derivatives; refuted: length exactly 1, rows beyond 2^512 (they become 0) |
| C126 | normalized surface derivatives for any order of additions | C125 with the same bounds whatever the order of additions in dot products and in either norm of a row, also with fused multiply-adds; refuted: equal digits |
| C127 | fits whatever the order of additions | counts, knots, ends and borders of the fits (C55, C65, C93) for dot products of any values; the partition-of-unity check (C92) for any order in its sums; order of the data (C123); refuted: equal digits |

A property whose English claim is false of the code as first expected is stated
with its exceptions, and the exception is proved: theorems named `_refuted`
exhibit a concrete witness, the remaining theorems prove the part that holds.
No property is left partial.

## 4. Readings of the code

The repository cannot be imported as it stands (C64): base modules use `abc`
without importing it, relative imports name things that do not exist, and the
surface base class is indented into the curve base class.  The model therefore
fixes a reading for each layer, and where readings differ both are modelled.

* **Geometry classes.**  `ModelCurve.v` and `ModelSurface.v` read the two base
  classes as separate classes.  `ModelNested.v` reads the file literally; C68
  says what differs.
* **`spline.Curve`, `spline.Surface`.**  fit/ uses these names, which exist
  nowhere.  `ModelInit.v`, `ModelFit.v`, `ModelData.v` take the curve class as a
  parameter: blank object, control-point setter, `insert_knot`, behaviour under
  evaluation.  `working_class` is the class fit/ evidently expects (setter
  assigns, derivatives fill three coordinates), `repo_class` is BSplineCurve as
  written.  Statements hold for every class where possible; otherwise they name
  the class, and each fit property also has a theorem about `repo_class`.
  Surfaces are records of plain attributes; `repo_surface` is the constructor
  that raises.
* **Missing imports in fit/.**  Function bodies are modelled as if the names
  they use (`np`, `knots`, `basis`, ...) referred to the modules of that name.

## 5. What the model leaves out or simplifies

* Numbers.  Integers are unbounded.  `int((low+high)/2)` is integer division
  (the same below 2^53: C79_probes).  Decimal literals 1e-5, 1e-6, 1e-8 are one
  correctly rounded division (the double that reading the literal gives:
  C122_constants).  `np.sum`, `@` and `np.linalg.norm` add from left to right;
  numpy may add in another order (C92 holds for every order; for points and
  derivatives C117 proves the bounds of C81, C82, C99 and C100 and the exact ends
  of C95 and C96 for every order of `@`, also with fused multiply-adds; C124 does
  the same for the first guesses, ranges and sorting of C84–C86, C126 for the
  normalized vectors of C125, C127 for the fits, with the sums of their checks).  Integer to double conversion is exact below
  2^53.  numpy's warnings are not modelled.
* `np.linspace`, `np.arange`, `np.allclose`, `np.isclose`, broadcasting of rows
  follow numpy 1.x.  `np.float` (removed in numpy 1.24) is taken to exist.
* Arrays.  1-D arrays are lists, 2-D arrays lists of rows.  Ragged lists of rows
  are not excluded by the types; numpy arrays never are ragged.  Where the number
  of columns matters for an empty array it is carried along (`data_array`).
  Aliasing: outside `ModelRef.v` a function that updates an array returns it, and
  attributes hold values.  `ModelRef.v` gives arrays, curves, surfaces, boundaries
  and problems addresses; it has the class `working_class` only, writes replace
  the whole contents of an array and keep its shape, and views (slices that share
  memory) are not modelled.
* Sorting: insertion sort; numpy's sort can differ only in the order of records
  that are equal in every field, that is, in the signs of zeros (C123_any_sort).
* `np.linalg.lstsq`, `np.linalg.cond` are parameters that may return or raise
  anything; theorems state what they need (`gs_solver`, which a concrete
  Gram–Schmidt solver is proved to meet).  `np.linalg.inv` of a 2×2 matrix is LU
  with partial pivoting.
* JSON, Delaunay triangulation and the mesh writer are parameters.  Float
  formatting and parsing are parameters of `ModelIO.v`; `ModelFloat.v` has Python's
  own conversions for doubles and C122 proves that they meet what the theorems
  about files assume.  Not modelled: CPython's limits on very long exponents and
  integers.  Text is ASCII.
* Files: a map from names to text after newline translation; different names are
  different files; opening may fail for any reason of the environment; reading
  and writing an open file does not fail; no concurrent access.
* `print`, `logging` output, `__repr__`, docstrings, setup.py and the bodies of
  the tests are not modelled (the tests' expected values are checked in
  `RepoTests.v`).
* Imports: top-level statements are reduced to what they bind and which names
  they use; names imported from outside the project exist there.

## 6. Findings

Each item is a theorem about the model, with the source lines in the property's
anchors.

* No fit module and not bspline.py can be imported (C64); adding `import abc`
  does not help (C64_abc_not_enough); moving SplineSurface out of
  SplineCurve as well makes bspline.py and fit/io/curve.py import (C64_dedent).
* Control points assigned to a curve are validated and dropped (C35); a surface's
  setter accepts only the wrong dimension (C42); surfaces cannot be constructed.
* `BSplineCurve.derivatives` raises for every valid request (C34); `insert_knot`
  raises UnboundLocalError (C37); `to_dict` raises AttributeError, `from_dict`
  changes the class and returns it (C38).
* `find_span` does not return for parameters outside the knot range (C04), may
  return an empty span at a repeated interior knot, where evaluation gives NaN
  (C03, C20), and moves parameters near the end to the last span (C05).
* Re-inserting a knot already present can change the curve (C14).
* Curve inversion returns the iterate before the one that met the tolerance
  (C46); surface inversion uses derivatives of the previous iterate (C47).
* The surface fit computes and then discards the boundary data (C56).
* Saving a curve to text never writes (C60); a saved surface cannot be read back
  (C61); writing a curve as JSON empties the target file (C62).
* The VTK grid can overflow its buffer or step past the domain (C63).
* A closed boundary (start = end) of degree at least 2 cannot be fitted: the
  initial curve is a point and the first Newton step is 0/0 (C74).
* On doubles the first and last point of a curve need not be the first and last
  control point (C81), a decreasing knot vector can be accepted (C83), and spans
  narrower than about 2^-1022 give NaN (C80).  The last sample of the first guess
  can be the double below 1 (C44, C84).
* A second fit of a boundary problem uses the initial curve of the first (C58).
* Arrays are not copied on assignment, so a problem's data change when the
  caller changes the array (C102).  After a fit in fixed mode writing into
  `init_curve.knot_vector` changes `fit_curve`, and the u-knots of both
  surfaces of an interior problem are the array of the bottom curve (C102, C103).
* An interior problem accepts as boundary only an object that no method of the
  package can produce: a Boundary on which fit_curve was set by hand (C59); Data
  and Boundary objects refuse every array (C69).

## 7. Trusted base

* The kernel of Coq 8.16.1, including its virtual machine (`vm_compute`,
  `vm_cast_no_check`; the checker re-checks these without the virtual machine)
  and primitive integers and floats.
* The faithfulness of `Model*.v` to /repo and of sections 4 and 5 to Python and
  numpy; the code was read, not run.
* Flocq is used as a library of theorems about rounding (C79–C100, C117 and C121–C127).
  It declares no axioms; those it uses are the standard library's.
* The axioms below.  All are from the standard library.  The development
  declares none, and contains no `Admitted`, functor, module type or plugin.
  The primitive types and operations of `PrimInt63` and `PrimFloat` are listed by
  `Print Assumptions` although they are computed by the kernel.

### What Print Assumptions lists

**Closed under the global context** (174 theorems):

C01_find_span_any_numbers, C04_divergence_genuine, C07_normalize_empty, C07_normalize_list,
C09_generate_uniform_short, C101_boundary, C101_boundary_references, C101_frame, C101_interior,
C101_interior_references, C101_new, C101_owners, C101_refused, C102_curve, C102_data,
C102_fixed_fit, C102_guards, C102_matrix, C102_vector, C103_bottom, C103_knots, C103_top,
C117_left_to_right, C122_int, C122_int_others, C122_int_underscores, C124_left_objects,
C124_left_to_right, C124_steps_curve, C124_steps_surface, C125_rows, C126_models, C126_rows,
C127_fixed, C127_left_to_right, C127_rounds, C127_surface, C12_insertion_planar_raises,
C12_insertion_result, C28_curve_rejects, C33_points_raise, C33_points_rank, C33_points_rows,
C34_derivatives_low_order, C34_derivatives_never, C35_never_stored, C36_constructor_unchecked,
C36_degree_of_history, C36_setters, C37_insert_knot_body_unchanged, C37_insert_knot_fails,
C38_from_dict, C38_from_dict_aliases, C38_to_dict_fails, C39_points, C39_points_rank,
C39_surface_rejects, C41_rejects, C42_control_points_inverted, C42_counts, C42_history,
C42_history_knots, C42_no_surface, C42_setters, C42_super, C43_planar, C43_repo_class, C43_too_few,
C44_empty, C45_steps, C46_degree_one, C46_exit, C46_repo_class, C47_degree_one, C47_exit,
C47_outdated_derivatives, C47_steps, C48_empty, C49_not_three_dimensional, C49_permutation,
C50_not_three_dimensional, C50_permutation, C51_all_fixed, C51_fixed_kept, C51_quiet,
C51_short_mask, C53_kept, C53_repo_class, C54_mask, C55_repo_class, C55_rounds, C56_bad_width,
C56_ignored, C56_missing, C57_assign, C57_data, C57_degree, C57_failed_assignment, C57_guards,
C57_interior, C57_interior_assign, C57_interior_latest, C57_latest, C57_method, C57_num, C58_count,
C58_fit_raises, C58_initial_curve_kept, C58_load, C58_load_before, C58_parameterize, C58_planar,
C58_refit, C58_repo_class, C58_save, C59_assignable, C59_history, C59_load_after, C59_mismatch,
C59_no_control_points, C59_no_fit, C59_parameterize, C59_repo_history, C59_repo_surface, C59_unset,
C60_body, C60_never, C61_blank, C61_denied, C61_integers, C61_not_readable, C61_padded,
C61_short_point, C61_written, C62_constructor, C62_names, C62_read, C62_reader_constructor,
C62_reading, C62_unsupported, C62_write, C63_zero, C64_abc_not_enough, C64_contents, C64_dedent,
C64_dedent_class, C64_every_module, C64_fuel, C64_import_order, C64_needed, C64_never_loaded,
C65_kept, C65_repo_class, C66_curve, C66_repo_class, C66_surface, C68_curve_requests,
C68_degree_keyword_lost, C68_detour, C68_dimension_clash, C68_frame, C68_outcomes,
C68_surface_attributes, C68_surface_dimension, C68_surface_private, C68_uv_knots_never, C69_arrays,
C69_assign, C69_boundary_history, C69_data_history, C69_dimension, C69_latest, C69_methods,
C98_first_column

**the primitives `float`, `int` and their operations** (31 theorems):

C03_empty_span_refuted, C05_narrow_last_span_refuted, C102_copied_refuted, C102_independent_refuted,
C103_checked_refuted, C110_scaling_refuted, C112_narrow_refuted, C113_narrow_refuted,
C115_top_row_refuted, C116_knot_refuted, C119_default_refuted, C120_sparse_refuted,
C123_negative_zero_refuted, C124_nan_refuted, C124_order_refuted, C14_overinsertion_refuted,
C14_reinsertion_refuted, C20_curve_double_knot_refuted, C21_over_clamped_refuted,
C28_curve_tolerance_refuted, C29_overclamped_refuted, C42_counts_refuted, C46_converged_refuted,
C57_degree_zero_refuted, C58_stale_degree_refuted, C63_past_end_refuted, C63_short_buffer_refuted,
C87_default, C89_between_refuted, C90_top_refuted, C97_bottom_refuted

**`ldshiftexp` and the primitives `float`, `int` and their operations** (5 theorems):

C122_constants, C122_format_special, C122_others, C122_underscores, C122_words

**`ClassicalDedekindReals.sig_forall_dec`, `FunctionalExtensionality.functional_extensionality_dep`** (3 theorems):

C25_piece_is_basis_function, C77_cases, C78_cases

**`ClassicalDedekindReals.sig_forall_dec`, `FunctionalExtensionality.functional_extensionality_dep` and the primitives `float`, `int` and their operations** (18 theorems):

C100_exact_refuted, C121_integers, C125_large_refuted, C126_order_refuted, C127_order_refuted,
C80_exact_sum_refuted, C80_narrow_span_refuted, C81_exact_ends_refuted, C83_nearest_refuted,
C83_sorted_refuted, C88_exact_refuted, C89_exact_refuted, C91_unity_refuted, C95_uniform_refuted,
C96_corner_refuted, C98_exact_sum_refuted, C98_narrow_span_refuted, C99_exact_refuted

**`ClassicalDedekindReals.sig_forall_dec`, `ClassicalDedekindReals.sig_not_dec`, `FunctionalExtensionality.functional_extensionality_dep`** (128 theorems):

C01_find_span_returns, C02_find_span_contains, C03_find_span_half_open, C04_find_span_above_cases,
C04_find_span_above_hangs, C04_find_span_below_hangs, C04_special, C05_end_tolerance,
C05_infinite_end, C05_negative_basis, C06_normalize_affine, C06_normalize_idempotent,
C06_normalize_invariant, C07_normalize_constant, C08_check_knot_vector, C08_clamped_accepted,
C09_generate_uniform, C104_next_order_refuted, C104_smooth, C104_tables, C107_fewer_refuted,
C109_bilinear, C10_uniform_accepted, C10_uniform_rejected, C110_curve, C110_parameterize_curve,
C110_parameterize_surface, C110_surface, C113_curve, C113_surface, C115_smooth, C116_curve,
C116_surface_exchanged, C116_surface_reversed_u, C116_surface_reversed_v, C119_off_surface_refuted,
C11_at_least_exact, C11_exact_when_separated, C11_find_multiplicity, C12_insertion_knots,
C13_insertion_keeps_curve, C13_new_knot_keeps_curve, C15_insertion_points,
C16_basis_functions_cox_de_boor, C16_basis_functions_pieces, C17_partition_of_unity,
C18_nonnegative, C19_clamped_end, C19_clamped_start, C20_curve_empty_span_nan, C20_empty_span_nan,
C21_one_basis_function_cox_de_boor, C22_single_and_batch_agree, C23_single_functions_sum_to_one,
C24_column_zero_is_basis_functions, C25_true_derivatives, C26_derivatives_sum_to_zero,
C27_order_above_degree_raises, C27_right_end_disagreement, C27_single_derivatives, C27_zero_outside,
C28_curve_is_sum, C28_curve_is_sum_everywhere, C28_curve_outside, C29_curve_ends, C30_curve_box,
C31_curve_affine, C32_curve_local, C39_surface_is_sum, C39_surface_is_sum_everywhere,
C39_surface_outside, C40_surface_box, C40_surface_corners, C40_surface_edges, C41_outside,
C41_surface_derivatives, C43_initial_curve, C43_initial_curve_segment, C43_no_knots,
C44_initial_guess, C45_range, C45_range_checked, C46_line_refuted, C47_flat, C47_range,
C48_initial_guess, C49_sorted, C50_sorted, C51_condition, C52_optimal, C52_solver, C53_optimal,
C53_unity, C54_optimal, C54_unity, C55_count, C56_optimal, C58_no_data, C59_ruled_surface,
C59_vtk_fit, C63_grid, C63_surface, C63_written, C65_optimal, C67_boundary_fit, C70_interior_fit,
C71_derivatives, C71_outside, C71_span, C72_data, C72_outcome, C72_point_curve, C72_regular,
C72_sample, C73_outcome, C73_sample, C74_closed, C74_first_round, C74_outcome, C74_sampled,
C75_outcome, C75_sampled, C76_initial, C76_line, C77_newton, C77_trace, C78_newton, C78_trace

**`ClassicalDedekindReals.sig_forall_dec`, `ClassicalDedekindReals.sig_not_dec`, `FunctionalExtensionality.functional_extensionality_dep` and the primitives `float`, `int` and their operations** (5 theorems):

C121_negative_zero_refuted, C121_rounding_refuted, C125_exact_refuted, C59_vtk, C84_nearest_refuted

**`ClassicalDedekindReals.sig_forall_dec`, `FunctionalExtensionality.functional_extensionality_dep`, `div_spec` and the primitives `float`, `int` and their operations** (1 theorems):

C121_zero_division

**`ClassicalDedekindReals.sig_forall_dec`, `ClassicalDedekindReals.sig_not_dec`, `Classical_Prop.classic`, `FunctionalExtensionality.functional_extensionality_dep`** (32 theorems):

C105_curve, C105_surface, C106_curve, C106_surface, C107_curve, C107_surface, C108_curve_recovers,
C108_curve_unique, C108_surface_recovers, C108_surface_unique, C111_curve, C111_surface,
C112_convex, C112_curve, C112_injective, C112_surface_u, C112_surface_v, C114_curve_order,
C114_curve_reversed, C114_surface_exchanged, C114_surface_order, C114_surface_reversed_u,
C114_surface_reversed_v, C118_contraction, C118_quadratic, C118_spline, C119_on_surface,
C120_adaptive, C120_boundary, C120_fixed, C120_interior, C120_surface

**`ClassicalDedekindReals.sig_forall_dec`, `ClassicalDedekindReals.sig_not_dec`, `FunctionalExtensionality.functional_extensionality_dep`, `leb_spec` and the primitives `float`, `int` and their operations** (1 theorems):

C57_number_types

**`ClassicalDedekindReals.sig_forall_dec`, `ClassicalDedekindReals.sig_not_dec`, `Classical_Prop.classic`, `FunctionalExtensionality.functional_extensionality_dep`, `ldshiftexp` and the primitives `float`, `int` and their operations** (1 theorems):

C117_order_refuted

**`ClassicalDedekindReals.sig_forall_dec`, `FloatAxioms.eqb_spec`, `FunctionalExtensionality.functional_extensionality_dep`, `leb_spec`, `ltb_spec` and the primitives `float`, `int` and their operations** (1 theorems):

C91_not_finite

**`ClassicalDedekindReals.sig_forall_dec`, `ClassicalDedekindReals.sig_not_dec`, `Classical_Prop.classic`, `FunctionalExtensionality.functional_extensionality_dep`, `SF2Prim_Prim2SF`, `ldshiftexp` and the primitives `float`, `int` and their operations** (3 theorems):

C117_orders, C122_parse, C126_example

**`ClassicalDedekindReals.sig_forall_dec`, `ClassicalDedekindReals.sig_not_dec`, `FloatAxioms.eqb_spec`, `FunctionalExtensionality.functional_extensionality_dep`, `SF2Prim_Prim2SF`, `ldshiftexp` and the primitives `float`, `int` and their operations** (1 theorems):

C123_qualifies

**`ClassicalDedekindReals.sig_forall_dec`, `ClassicalDedekindReals.sig_not_dec`, `FunctionalExtensionality.functional_extensionality_dep`, `abs_spec`, `opp_spec`, `sqrt_spec` and the primitives `float`, `int` and their operations** (1 theorems):

C121_unary

**`ClassicalDedekindReals.sig_forall_dec`, `FunctionalExtensionality.functional_extensionality_dep`, `add_spec`, `div_spec`, `mul_spec`, `sub_spec` and the primitives `float`, `int` and their operations** (1 theorems):

C121_special

**`ClassicalDedekindReals.sig_forall_dec`, `ClassicalDedekindReals.sig_not_dec`, `Classical_Prop.classic`, `FloatAxioms.eqb_spec`, `FunctionalExtensionality.functional_extensionality_dep`, `SF2Prim_Prim2SF`, `ldshiftexp` and the primitives `float`, `int` and their operations** (5 theorems):

C122_faithful, C122_format, C122_not_readable, C122_roundtrip, C122_surface_file

**`ClassicalDedekindReals.sig_forall_dec`, `ClassicalDedekindReals.sig_not_dec`, `Classical_Prop.classic`, `FunctionalExtensionality.functional_extensionality_dep`, `SF2Prim_Prim2SF`, `ldshiftexp`, `leb_spec` and the primitives `float`, `int` and their operations** (2 theorems):

C124_library_curve, C86_library_curve

**`ClassicalDedekindReals.sig_forall_dec`, `ClassicalDedekindReals.sig_not_dec`, `Classical_Prop.classic`, `FunctionalExtensionality.functional_extensionality_dep`, `SF2Prim_Prim2SF`, `ldshiftexp`, `ltb_spec` and the primitives `float`, `int` and their operations** (1 theorems):

C91_gap_refuted

**`ClassicalDedekindReals.sig_forall_dec`, `ClassicalDedekindReals.sig_not_dec`, `Classical_Prop.classic`, `FloatAxioms.eqb_spec`, `FunctionalExtensionality.functional_extensionality_dep`, `SF2Prim_Prim2SF`, `ldshiftexp`, `ltb_spec` and the primitives `float`, `int` and their operations** (2 theorems):

C124_sorted_curve, C86_sorted_curve

**`ClassicalDedekindReals.sig_forall_dec`, `ClassicalDedekindReals.sig_not_dec`, `Classical_Prop.classic`, `FloatAxioms.eqb_spec`, `FunctionalExtensionality.functional_extensionality_dep`, `SF2Prim_Prim2SF`, `ldshiftexp`, `sub_spec` and the primitives `float`, `int` and their operations** (1 theorems):

C121_finite

**`ClassicalDedekindReals.sig_forall_dec`, `ClassicalDedekindReals.sig_not_dec`, `Classical_Prop.classic`, `FunctionalExtensionality.functional_extensionality_dep`, `SF2Prim_Prim2SF`, `add_spec`, `ldshiftexp`, `mul_spec` and the primitives `float`, `int` and their operations** (1 theorems):

C124_nan_orders

**`ClassicalDedekindReals.sig_forall_dec`, `ClassicalDedekindReals.sig_not_dec`, `Classical_Prop.classic`, `FloatAxioms.eqb_spec`, `FunctionalExtensionality.functional_extensionality_dep`, `SF2Prim_Prim2SF`, `ldshiftexp`, `leb_spec`, `ltb_spec` and the primitives `float`, `int` and their operations** (2 theorems):

C121_compare, C121_extremes

**`ClassicalDedekindReals.sig_forall_dec`, `ClassicalDedekindReals.sig_not_dec`, `Classical_Prop.classic`, `FunctionalExtensionality.functional_extensionality_dep`, `SF2Prim_Prim2SF`, `add_spec`, `div_spec`, `ldshiftexp`, `mul_spec`, `sub_spec` and the primitives `float`, `int` and their operations** (1 theorems):

C80_basis

**`ClassicalDedekindReals.sig_forall_dec`, `ClassicalDedekindReals.sig_not_dec`, `Classical_Prop.classic`, `FloatAxioms.eqb_spec`, `FunctionalExtensionality.functional_extensionality_dep`, `SF2Prim_Prim2SF`, `add_spec`, `div_spec`, `ldshiftexp`, `leb_spec`, `ltb_spec`, `mul_spec`, `sub_spec` and the primitives `float`, `int` and their operations** (1 theorems):

C91_one_basis

**`ClassicalDedekindReals.sig_forall_dec`, `ClassicalDedekindReals.sig_not_dec`, `Classical_Prop.classic`, `FloatAxioms.eqb_spec`, `FunctionalExtensionality.functional_extensionality_dep`, `SF2Prim_Prim2SF`, `add_spec`, `div_spec`, `ldshiftexp`, `leb_spec`, `ltb_spec`, `mul_spec`, `of_uint63_spec`, `sub_spec` and the primitives `float`, `int` and their operations** (7 theorems):

C123_any_arithmetic, C123_any_sort, C123_boundary, C123_fit, C123_interior, C123_parameterize,
C127_data_order

**`ClassicalDedekindReals.sig_forall_dec`, `ClassicalDedekindReals.sig_not_dec`, `Classical_Prop.classic`, `FunctionalExtensionality.functional_extensionality_dep`, `SF2Prim_Prim2SF`, `Uint63.add_spec`, `Uint63.eqb_correct`, `Uint63.eqb_refl`, `Uint63.leb_spec`, `Uint63.lor_spec`, `Uint63.lsl_spec`, `Uint63.lsr_spec`, `Uint63.ltb_spec`, `Uint63.of_to_Z`, `Uint63.sub_spec`, `div_spec`, `ldshiftexp`, `of_uint63_spec`, `opp_spec` and the primitives `float`, `int` and their operations** (1 theorems):

C79_probes

**`ClassicalDedekindReals.sig_forall_dec`, `ClassicalDedekindReals.sig_not_dec`, `Classical_Prop.classic`, `FloatAxioms.eqb_spec`, `FunctionalExtensionality.functional_extensionality_dep`, `SF2Prim_Prim2SF`, `Uint63.add_spec`, `Uint63.eqb_correct`, `Uint63.eqb_refl`, `Uint63.leb_spec`, `Uint63.lor_spec`, `Uint63.lsl_spec`, `Uint63.lsr_spec`, `Uint63.ltb_spec`, `Uint63.of_to_Z`, `Uint63.sub_spec`, `ldshiftexp`, `leb_spec`, `ltb_spec`, `of_uint63_spec`, `opp_spec` and the primitives `float`, `int` and their operations** (1 theorems):

C121_validate

**`ClassicalDedekindReals.sig_forall_dec`, `ClassicalDedekindReals.sig_not_dec`, `Classical_Prop.classic`, `FunctionalExtensionality.functional_extensionality_dep`, `SF2Prim_Prim2SF`, `Uint63.add_spec`, `Uint63.eqb_correct`, `Uint63.eqb_refl`, `Uint63.leb_spec`, `Uint63.lor_spec`, `Uint63.lsl_spec`, `Uint63.lsr_spec`, `Uint63.ltb_spec`, `Uint63.of_to_Z`, `Uint63.sub_spec`, `div_spec`, `ldshiftexp`, `ltb_spec`, `mul_spec`, `of_uint63_spec`, `opp_spec` and the primitives `float`, `int` and their operations** (2 theorems):

C124_range_curve, C86_curve

**`ClassicalDedekindReals.sig_forall_dec`, `ClassicalDedekindReals.sig_not_dec`, `Classical_Prop.classic`, `FloatAxioms.eqb_spec`, `FunctionalExtensionality.functional_extensionality_dep`, `SF2Prim_Prim2SF`, `Uint63.add_spec`, `Uint63.eqb_correct`, `Uint63.eqb_refl`, `Uint63.leb_spec`, `Uint63.lor_spec`, `Uint63.lsl_spec`, `Uint63.lsr_spec`, `Uint63.ltb_spec`, `Uint63.of_to_Z`, `Uint63.sub_spec`, `add_spec`, `div_spec`, `ldshiftexp`, `mul_spec`, `of_uint63_spec`, `opp_spec` and the primitives `float`, `int` and their operations** (1 theorems):

C83_generated

**`ClassicalDedekindReals.sig_forall_dec`, `ClassicalDedekindReals.sig_not_dec`, `Classical_Prop.classic`, `FunctionalExtensionality.functional_extensionality_dep`, `SF2Prim_Prim2SF`, `Uint63.add_spec`, `Uint63.eqb_correct`, `Uint63.eqb_refl`, `Uint63.leb_spec`, `Uint63.lor_spec`, `Uint63.lsl_spec`, `Uint63.lsr_spec`, `Uint63.ltb_spec`, `Uint63.of_to_Z`, `Uint63.sub_spec`, `add_spec`, `div_spec`, `ldshiftexp`, `leb_spec`, `mul_spec`, `of_uint63_spec`, `opp_spec` and the primitives `float`, `int` and their operations** (1 theorems):

C87_powers

**`ClassicalDedekindReals.sig_forall_dec`, `ClassicalDedekindReals.sig_not_dec`, `Classical_Prop.classic`, `FunctionalExtensionality.functional_extensionality_dep`, `SF2Prim_Prim2SF`, `Uint63.add_spec`, `Uint63.eqb_correct`, `Uint63.eqb_refl`, `Uint63.leb_spec`, `Uint63.lor_spec`, `Uint63.lsl_spec`, `Uint63.lsr_spec`, `Uint63.ltb_spec`, `Uint63.of_to_Z`, `Uint63.sub_spec`, `add_spec`, `div_spec`, `ldshiftexp`, `mul_spec`, `of_uint63_spec`, `opp_spec`, `sub_spec` and the primitives `float`, `int` and their operations** (1 theorems):

C98_derivatives

**`ClassicalDedekindReals.sig_forall_dec`, `ClassicalDedekindReals.sig_not_dec`, `Classical_Prop.classic`, `FunctionalExtensionality.functional_extensionality_dep`, `SF2Prim_Prim2SF`, `Uint63.add_spec`, `Uint63.eqb_correct`, `Uint63.eqb_refl`, `Uint63.leb_spec`, `Uint63.lor_spec`, `Uint63.lsl_spec`, `Uint63.lsr_spec`, `Uint63.ltb_spec`, `Uint63.of_to_Z`, `Uint63.sub_spec`, `add_spec`, `div_spec`, `ldshiftexp`, `leb_spec`, `mul_spec`, `of_uint63_spec`, `opp_spec`, `sub_spec` and the primitives `float`, `int` and their operations** (5 theorems):

C100_surface, C117_curve_derivatives, C117_surface_derivatives, C87_grid, C99_curve

**`ClassicalDedekindReals.sig_forall_dec`, `ClassicalDedekindReals.sig_not_dec`, `Classical_Prop.classic`, `FunctionalExtensionality.functional_extensionality_dep`, `SF2Prim_Prim2SF`, `Uint63.add_spec`, `Uint63.eqb_correct`, `Uint63.eqb_refl`, `Uint63.leb_spec`, `Uint63.lor_spec`, `Uint63.lsl_spec`, `Uint63.lsr_spec`, `Uint63.ltb_spec`, `Uint63.of_to_Z`, `Uint63.sub_spec`, `add_spec`, `div_spec`, `ldshiftexp`, `ltb_spec`, `mul_spec`, `of_uint63_spec`, `opp_spec`, `sqrt_spec`, `sub_spec` and the primitives `float`, `int` and their operations** (4 theorems):

C124_guess, C124_guess_surface, C84_guess, C85_guess

**`ClassicalDedekindReals.sig_forall_dec`, `ClassicalDedekindReals.sig_not_dec`, `Classical_Prop.classic`, `FloatAxioms.eqb_spec`, `FunctionalExtensionality.functional_extensionality_dep`, `SF2Prim_Prim2SF`, `Uint63.add_spec`, `Uint63.eqb_correct`, `Uint63.eqb_refl`, `Uint63.leb_spec`, `Uint63.lor_spec`, `Uint63.lsl_spec`, `Uint63.lsr_spec`, `Uint63.ltb_spec`, `Uint63.of_to_Z`, `Uint63.sub_spec`, `abs_spec`, `add_spec`, `div_spec`, `ldshiftexp`, `leb_spec`, `mul_spec`, `of_uint63_spec`, `opp_spec`, `sub_spec` and the primitives `float`, `int` and their operations** (1 theorems):

C88_insertion

**`ClassicalDedekindReals.sig_forall_dec`, `ClassicalDedekindReals.sig_not_dec`, `Classical_Prop.classic`, `FunctionalExtensionality.functional_extensionality_dep`, `SF2Prim_Prim2SF`, `Uint63.add_spec`, `Uint63.eqb_correct`, `Uint63.eqb_refl`, `Uint63.leb_spec`, `Uint63.lor_spec`, `Uint63.lsl_spec`, `Uint63.lsr_spec`, `Uint63.ltb_spec`, `Uint63.of_to_Z`, `Uint63.sub_spec`, `add_spec`, `div_spec`, `ldshiftexp`, `leb_spec`, `ltb_spec`, `mul_spec`, `of_uint63_spec`, `opp_spec`, `sqrt_spec`, `sub_spec` and the primitives `float`, `int` and their operations** (4 theorems):

C124_library_surface, C124_range_surface, C86_library_surface, C86_surface

**`ClassicalDedekindReals.sig_forall_dec`, `ClassicalDedekindReals.sig_not_dec`, `Classical_Prop.classic`, `FloatAxioms.eqb_spec`, `FunctionalExtensionality.functional_extensionality_dep`, `SF2Prim_Prim2SF`, `Uint63.add_spec`, `Uint63.eqb_correct`, `Uint63.eqb_refl`, `Uint63.leb_spec`, `Uint63.lor_spec`, `Uint63.lsl_spec`, `Uint63.lsr_spec`, `Uint63.ltb_spec`, `Uint63.of_to_Z`, `Uint63.sub_spec`, `abs_spec`, `add_spec`, `div_spec`, `ldshiftexp`, `leb_spec`, `ltb_spec`, `mul_spec`, `of_uint63_spec`, `opp_spec`, `sub_spec` and the primitives `float`, `int` and their operations** (36 theorems):

C100_uniform, C117_corners, C117_curve, C117_ends, C117_surface, C127_adaptive, C127_check_curve,
C127_check_surface, C127_round, C79_same_as_exact, C79_span, C81_curve, C81_uniform, C82_surface,
C82_uniform, C83_clamped_accepted, C83_generated_accepted, C83_unit_accepted, C87_surface,
C88_new_knot, C88_points, C89_initial_curve, C89_points, C90_ruled_surface, C92_any_order,
C92_curve, C92_surface, C93_adaptive_fit, C94_boundary_fit, C95_end, C95_fit, C95_start,
C95_uniform, C96_corners, C96_edges, C99_uniform

**`ClassicalDedekindReals.sig_forall_dec`, `ClassicalDedekindReals.sig_not_dec`, `Classical_Prop.classic`, `FloatAxioms.eqb_spec`, `FunctionalExtensionality.functional_extensionality_dep`, `SF2Prim_Prim2SF`, `Uint63.add_spec`, `Uint63.eqb_correct`, `Uint63.eqb_refl`, `Uint63.leb_spec`, `Uint63.lor_spec`, `Uint63.lsl_spec`, `Uint63.lsr_spec`, `Uint63.ltb_spec`, `Uint63.of_to_Z`, `Uint63.sub_spec`, `abs_spec`, `add_spec`, `div_spec`, `ldshiftexp`, `leb_spec`, `mul_spec`, `of_uint63_spec`, `opp_spec`, `sqrt_spec`, `sub_spec` and the primitives `float`, `int` and their operations** (6 theorems):

C125_axis, C125_direction, C125_unit, C126_axis, C126_direction, C126_unit

**`ClassicalDedekindReals.sig_forall_dec`, `ClassicalDedekindReals.sig_not_dec`, `Classical_Prop.classic`, `FloatAxioms.eqb_spec`, `FunctionalExtensionality.functional_extensionality_dep`, `SF2Prim_Prim2SF`, `Uint63.add_spec`, `Uint63.eqb_correct`, `Uint63.eqb_refl`, `Uint63.leb_spec`, `Uint63.lor_spec`, `Uint63.lsl_spec`, `Uint63.lsr_spec`, `Uint63.ltb_spec`, `Uint63.of_to_Z`, `Uint63.sub_spec`, `add_spec`, `div_spec`, `ldshiftexp`, `leb_spec`, `ltb_spec`, `mul_spec`, `of_uint63_spec`, `opp_spec`, `sqrt_spec`, `sub_spec` and the primitives `float`, `int` and their operations** (2 theorems):

C124_sorted_surface, C86_sorted_surface

**`ClassicalDedekindReals.sig_forall_dec`, `ClassicalDedekindReals.sig_not_dec`, `Classical_Prop.classic`, `FloatAxioms.eqb_spec`, `FunctionalExtensionality.functional_extensionality_dep`, `SF2Prim_Prim2SF`, `Uint63.add_spec`, `Uint63.eqb_correct`, `Uint63.eqb_refl`, `Uint63.leb_spec`, `Uint63.lor_spec`, `Uint63.lsl_spec`, `Uint63.lsr_spec`, `Uint63.ltb_spec`, `Uint63.of_to_Z`, `Uint63.sub_spec`, `abs_spec`, `add_spec`, `div_spec`, `ldshiftexp`, `leb_spec`, `ltb_spec`, `mul_spec`, `of_uint63_spec`, `opp_spec`, `sqrt_spec`, `sub_spec` and the primitives `float`, `int` and their operations** (5 theorems):

C124_uniform, C124_uniform_surface, C84_uniform, C85_uniform, C97_interior_fit

Primitive operations listed: `Prim2SF_SF2Prim`, `Prim2SF_valid`, `abs`, `add`, `div`, `eqb`, `float`, `frshiftexp`, `int`, `land`, `leb`, `lor`, `lsl`, `lsr`, `ltb`, `mul`, `normfr_mantissa`, `of_uint63`, `opp`, `sqrt`, `sub`.
