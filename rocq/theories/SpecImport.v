(** The outcome of importing each module, as a table. *)
From Coq Require Import String.
From Verif Require Import Py.
Open Scope string_scope.

Definition if_numpy (numpy : bool) (r : res unit) : res unit :=
  if numpy then r else Err ModuleNotFoundError.

(** The outcome of importing each module of the repository. *)
Definition outcomes (numpy : bool) : list (list string * res unit) := [
  (["spline"], Ok tt);
  (["spline"; "algorithms"], Ok tt);
  (["spline"; "algorithms"; "basis"], if_numpy numpy (Ok tt));
  (["spline"; "algorithms"; "knots"], if_numpy numpy (Ok tt));
  (["spline"; "model"], Ok tt);
  (["spline"; "model"; "base_geometry"], Err NameError);
  (["spline"; "model"; "bspline"], if_numpy numpy (Err NameError));
  (["spline"; "util"], Ok tt);
  (["spline"; "util"; "validation"], Ok tt);
  (["fit"], Ok tt);
  (["fit"; "algorithms"], Ok tt);
  (["fit"; "algorithms"; "fitting"], Err ImportError);
  (["fit"; "algorithms"; "initialization"], Err ImportError);
  (["fit"; "algorithms"; "parameterize"], Err ImportError);
  (["fit"; "io"], Ok tt);
  (["fit"; "io"; "base_io"], Err NameError);
  (["fit"; "io"; "curve"], if_numpy numpy (Err NameError));
  (["fit"; "io"; "text"], Err ImportError);
  (["fit"; "model"], Ok tt);
  (["fit"; "model"; "base_data"], Err ImportError);
  (["tests"], Ok tt);
  (["tests"; "context"], Err ModuleNotFoundError);
  (["tests"; "test_basis"], Err ModuleNotFoundError);
  (["tests"; "test_data"], Err ModuleNotFoundError);
  (["tests"; "test_knots"], Err ModuleNotFoundError);
  (["tests"; "test_parameterize"], Err ModuleNotFoundError);
  (["tests"; "test_spline"], Err ModuleNotFoundError)].

(** ... and with [import abc] added to the two base modules. *)
Definition outcomes_abc (numpy : bool) : list (list string * res unit) :=
  let change := [
    (["spline"; "model"; "base_geometry"], Ok tt);
    (["spline"; "model"; "bspline"], if_numpy numpy (Err ImportError));
    (["fit"; "io"; "base_io"], Ok tt);
    (["fit"; "io"; "curve"], if_numpy numpy (Err ImportError))] in
  map (fun x => match find (fun y => if list_eq_dec string_dec (fst y) (fst x)
                                     then true else false) change with
                | Some y => y | None => x end) (outcomes numpy).

(** ... and with the surface base class out of the curve base class, too. *)
Definition outcomes_flat (numpy : bool) : list (list string * res unit) :=
  let change := [
    (["spline"; "model"; "base_geometry"], Ok tt);
    (["spline"; "model"; "bspline"], if_numpy numpy (Ok tt));
    (["fit"; "io"; "base_io"], Ok tt);
    (["fit"; "io"; "curve"], if_numpy numpy (Ok tt))] in
  map (fun x => match find (fun y => if list_eq_dec string_dec (fst y) (fst x)
                                     then true else false) change with
                | Some y => y | None => x end) (outcomes numpy).

(** The names each importable source file defines, in alphabetical order ([repaired]: with
    both repairs). *)
Definition module_contents (repaired : bool) : list (list string * list string) :=
  [(["spline"; "algorithms"; "basis"], ["__file__"; "basis_function_ders"; "basis_functions"; "np"; "one_basis_function"; "one_basis_function_ders"]);
   (["spline"; "algorithms"; "knots"], ["__file__"; "check_knot_vector"; "curve_knot_insertion"; "find_multiplicity"; "find_span"; "generate_uniform"; "normalize"; "np"]);
   (["spline"; "util"; "validation"], ["__file__"; "validate_knot"])] ++
  (if repaired then
  [(["spline"; "model"; "base_geometry"], ["ABC"; "SplineCurve"; "SplineGeometry"; "SplineSurface"; "__file__"; "abc"]);
   (["spline"; "model"; "bspline"], ["BSplineCurve"; "BSplineSurface"; "SplineCurve"; "SplineSurface"; "__file__"; "basis_function_ders"; "basis_functions"; "check_knot_vector"; "curve_knot_insertion"; "find_span"; "np"; "validate_knot"]);
   (["fit"; "io"; "base_io"], ["ABC"; "BaseFileIO"; "BaseReader"; "BaseWriter"; "__file__"; "abc"]);
   (["fit"; "io"; "curve"], ["BSplineCurve"; "BaseReader"; "BaseWriter"; "CurveReader"; "CurveWriter"; "__file__"; "json"; "np"; "os"])] else []).

(** The names that [from . import ...] takes from the package of a module and that are
    no modules of it. *)
Definition package_needs : list (list string * list string) := [
  (["fit"; "algorithms"; "parameterize"], ["np"]);
  (["fit"; "algorithms"; "initialization"], ["np"; "spline"; "knots"]);
  (["fit"; "io"; "text"], ["np"; "spatial"; "meshio"]);
  (["fit"; "model"; "base_data"], ["spline"; "np"; "knots"; "parameterize"; "fitting"; "fileIO"; "initialization"])].
