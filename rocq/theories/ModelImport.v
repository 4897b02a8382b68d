(** Model of importing the project's modules: what the statements at the top
    level of each file bind, and which of them raise.

    A name is resolved when the statement that uses it runs; the bodies of
    functions do not run at import time.  Kept from each file are its imports,
    its function and class definitions (with the line numbers, the names in
    decorators, default values and base classes) and the names used by
    expression statements; docstrings bind nothing.  The import system is that
    of Python 3: parents first, the module is entered in [sys.modules] before
    its body runs and is removed again when the body raises, a submodule is
    bound in its package when its import succeeds, and [from p import n] takes
    the attribute [n] of [p] or else imports the submodule [p.n].

    Directories with and without __init__.py (all of the former are empty; only
    fit/algorithms has none) behave alike: packages that bind nothing.  Outside
    the project there are the standard library modules used, [pytest], and,
    depending on a parameter, numpy; there is no distribution named pysplinefit.
    Every name imported from a module outside the project exists there. *)
From Coq Require Import String.
From Verif Require Import Py.
Open Scope string_scope.
Open Scope Z_scope.

Definition path := list string.                   (* a dotted name *)

Inductive member :=
| Fun (uses : list string) (f : string) (line : Z)
| Cls (uses : list string) (c : string) (line : Z) (body : list member).
Inductive stmt :=
| Import (p : path) (as_ : string)
| From (p : path) (names : list string)
| FromHere (p : path) (names : list string)       (* from .p import names *)
| Eval (uses : list string)
| Member (m : member).
Inductive source := Pkg | Mod (body : list stmt).

(** spline/algorithms/basis.py *)
Definition src_spline_algorithms_basis : list stmt := [
  Import ["numpy"] "np";
  Member (Fun [] "basis_functions" 10);
  Member (Fun [] "basis_function_ders" 57);
  Member (Fun [] "one_basis_function" 170);
  Member (Fun [] "one_basis_function_ders" 230)].
(** spline/algorithms/knots.py *)
Definition src_spline_algorithms_knots : list stmt := [
  Import ["numpy"] "np";
  Member (Fun [] "find_span" 10);
  Member (Fun [] "normalize" 64);
  Member (Fun [] "check_knot_vector" 86);
  Member (Fun [] "generate_uniform" 124);
  Member (Fun [] "find_multiplicity" 151);
  Member (Fun [] "curve_knot_insertion" 174)].
(** spline/model/base_geometry.py *)
Definition src_spline_model_base_geometry : list stmt := [
  From ["abc"] ["ABC"];
  Member (Cls ["ABC"] "SplineGeometry" 9 [
      Fun [] "__init__" 18;
      Fun [] "__repr__" 21;
      Fun ["property"] "dimension" 25]);
  Member (Cls ["SplineGeometry"] "SplineCurve" 29 [
      Fun [] "__init__" 42;
      Fun ["property"] "degree" 49;
      Fun ["degree"] "degree" 53;
      Fun ["property"] "control_points" 59;
      Fun ["control_points"] "control_points" 63;
      Fun ["property"] "knot_vector" 72;
      Fun ["knot_vector"] "knot_vector" 76;
      Fun ["abc"] "single_point" 87;
      Fun ["abc"] "points" 103;
      Fun ["abc"] "derivatives" 119;
      Fun ["abc"] "insert_knot" 140;
      Fun ["abc"] "_check_knot_vector" 151;
      Cls ["SplineGeometry"] "SplineSurface" 157 [];
      Fun [] "__init__" 174;
      Fun ["property"] "degree_u" 185;
      Fun ["degree_u"] "degree_u" 189;
      Fun ["property"] "degree_v" 195;
      Fun ["degree_v"] "degree_v" 199;
      Fun ["property"] "num_ctrlpts_u" 205;
      Fun ["num_ctrlpts_u"] "num_ctrlpts_u" 209;
      Fun ["property"] "num_ctrlpts_v" 218;
      Fun ["num_ctrlpts_v"] "num_ctrlpts_v" 222;
      Fun ["property"] "control_points" 231;
      Fun ["control_points"] "control_points" 235;
      Fun ["property"] "knot_vector_u" 248;
      Fun ["knot_vector_u"] "knot_vector_u" 252;
      Fun ["property"] "knot_vector_v" 266;
      Fun ["knot_vector_v"] "knot_vector_v" 270;
      Fun ["abc"] "single_point" 284;
      Fun ["abc"] "points" 302;
      Fun ["abc"] "derivatives" 318;
      Fun ["abc"] "_check_knot_vector" 343])].
(** spline/model/bspline.py *)
Definition src_spline_model_bspline : list stmt := [
  Import ["numpy"] "np";
  From ["spline"; "algorithms"; "basis"] ["basis_functions"; "basis_function_ders"];
  From ["spline"; "algorithms"; "knots"] ["curve_knot_insertion"; "check_knot_vector"; "find_span"];
  From ["spline"; "model"; "base_geometry"] ["SplineCurve"; "SplineSurface"];
  From ["spline"; "util"; "validation"] ["validate_knot"];
  Member (Cls ["SplineCurve"] "BSplineCurve" 15 [
      Fun [] "single_point" 19;
      Fun [] "points" 46;
      Fun [] "derivatives" 68;
      Fun [] "insert_knot" 111;
      Fun ["classmethod"] "from_dict" 131;
      Fun [] "to_dict" 158;
      Fun [] "_check_knot_vector" 173]);
  Member (Cls ["SplineSurface"] "BSplineSurface" 179 [
      Fun [] "single_point" 182;
      Fun [] "points" 228;
      Fun [] "derivatives" 249;
      Fun [] "_check_knot_vector" 321])].
(** spline/util/validation.py *)
Definition src_spline_util_validation : list stmt := [
  Member (Fun [] "validate_knot" 7)].
(** fit/algorithms/fitting.py *)
Definition src_fit_algorithms_fitting : list stmt := [
  FromHere [] ["np"];
  FromHere [] ["basis"];
  FromHere [] ["parameterize"];
  FromHere [] ["spline"];
  FromHere [] ["initialization"];
  Member (Fun [] "linear_fit_fixed" 16);
  Member (Fun [] "single_fit_curve" 73);
  Member (Fun [] "single_fit_surface" 144);
  Member (Fun [] "fit_curve_fixed_ctrlpts" 233);
  Member (Fun [] "fit_curve_knot_insertion" 275);
  Member (Fun [] "fit_surface" 337)].
(** fit/algorithms/initialization.py *)
Definition src_fit_algorithms_initialization : list stmt := [
  FromHere [] ["np"];
  FromHere [] ["spline"];
  FromHere [] ["knots"];
  Member (Fun [] "initialize_curve" 14)].
(** fit/algorithms/parameterize.py *)
Definition src_fit_algorithms_parameterize : list stmt := [
  FromHere [] ["np"];
  Member (Fun [] "initial_guess_curve" 12);
  Member (Fun [] "curve_inversion" 45);
  Member (Fun [] "parameterize_curve" 138);
  Member (Fun [] "initial_guess_surf" 167);
  Member (Fun [] "surface_inversion" 205);
  Member (Fun [] "parameterize_surface" 343)].
(** fit/io/base_io.py *)
Definition src_fit_io_base_io : list stmt := [
  From ["abc"] ["ABC"];
  Member (Cls ["ABC"] "BaseFileIO" 9 [
      Fun [] "__init__" 17]);
  Member (Cls ["BaseFileIO"] "BaseReader" 22 [
      Fun ["abc"] "read" 26]);
  Member (Cls ["BaseFileIO"] "BaseWriter" 36 [
      Fun [] "__init__" 43;
      Fun ["abc"] "write" 49])].
(** fit/io/curve.py *)
Definition src_fit_io_curve : list stmt := [
  Import ["json"] "json";
  Import ["os"] "os";
  Import ["numpy"] "np";
  From ["fit"; "io"; "base_io"] ["BaseReader"; "BaseWriter"];
  From ["spline"; "model"; "bspline"] ["BSplineCurve"];
  Member (Cls ["BaseReader"] "CurveReader" 15 [
      Fun [] "__init__" 18;
      Fun [] "read" 24;
      Fun [] "_json_reader" 38]);
  Member (Cls ["BaseWriter"] "CurveWriter" 44 [
      Fun [] "__init__" 47;
      Fun [] "write" 53;
      Fun [] "_json_writer" 63])].
(** fit/io/text.py *)
Definition src_fit_io_text : list stmt := [
  FromHere [] ["np"];
  FromHere [] ["spatial"];
  FromHere [] ["meshio"];
  Member (Fun [] "write_curve_to_txt" 14);
  Member (Fun [] "read_curve_from_txt" 52);
  Member (Fun [] "write_surface_to_txt" 89);
  Member (Fun [] "read_surf_from_txt" 139);
  Member (Fun [] "surf_to_vtk" 187)].
(** fit/model/base_data.py *)
Definition src_fit_model_base_data : list stmt := [
  From ["abc"] ["ABC"];
  FromHere [] ["spline"];
  FromHere [] ["np"];
  FromHere [] ["knots"];
  FromHere [] ["parameterize"];
  FromHere [] ["fitting"];
  FromHere [] ["fileIO"];
  FromHere [] ["initialization"];
  Member (Cls ["ABC"] "Data" 20 [
      Fun [] "__init__" 31;
      Fun [] "__repr__" 34;
      Fun ["property"] "dimension" 38;
      Fun ["property"] "data" 42;
      Fun ["data"] "data" 46;
      Fun [] "_dimension_message" 51]);
  Member (Cls ["Data"] "Boundary" 56 [
      Fun ["property"] "end" 67;
      Fun ["end"] "end" 71;
      Fun ["property"] "start" 77;
      Fun ["start"] "start" 81]);
  Member (Cls [] "BoundaryProblem" 87 [
      Fun [] "__init__" 92;
      Fun [] "__repr__" 103;
      Fun ["property"] "degree" 107;
      Fun ["degree"] "degree" 117;
      Fun ["property"] "data" 130;
      Fun ["data"] "data" 140;
      Fun ["property"] "start" 160;
      Fun ["start"] "start" 170;
      Fun ["property"] "end" 190;
      Fun ["end"] "end" 200;
      Fun ["property"] "num_ctrlpts" 220;
      Fun ["num_ctrlpts"] "num_ctrlpts" 230;
      Fun ["property"] "fit_method" 245;
      Fun ["fit_method"] "fit_method" 257;
      Fun ["property"] "init_curve" 268;
      Fun [] "set_init_curve" 278;
      Fun ["property"] "parameterized_data" 291;
      Fun [] "parameterize" 302;
      Fun ["property"] "fit_curve" 317;
      Fun [] "fit" 325;
      Fun [] "save" 357;
      Fun [] "load" 382]);
  Member (Cls [] "InteriorProblem" 407 [
      Fun [] "__init__" 412;
      Fun [] "__repr__" 422;
      Fun ["property"] "degree" 426;
      Fun ["degree"] "degree" 438;
      Fun ["property"] "data" 451;
      Fun ["data"] "data" 461;
      Fun ["property"] "num_ctrlpts" 481;
      Fun ["num_ctrlpts"] "num_ctrlpts" 491;
      Fun ["property"] "top_boundary" 506;
      Fun ["top_boundary"] "top_boundary" 516;
      Fun ["property"] "bottom_boundary" 527;
      Fun ["bottom_boundary"] "bottom_boundary" 537;
      Fun ["property"] "init_surface" 548;
      Fun [] "set_init_surface" 556;
      Fun ["property"] "parameterized_data" 598;
      Fun [] "parameterize" 609;
      Fun ["property"] "fit_surface" 624;
      Fun [] "fit" 632;
      Fun [] "save" 656;
      Fun [] "load" 681;
      Fun [] "vtk" 705])].
(** tests/context.py *)
Definition src_tests_context : list stmt := [
  Import ["os"] "os";
  Import ["sys"] "sys";
  Eval ["__file__"; "os"; "sys"];
  Import ["pysplinefit"] "pysplinefit";
  Import ["numpy"] "np"].
(** tests/test_basis.py *)
Definition src_tests_test_basis : list stmt := [
  FromHere ["context"] ["pysplinefit"];
  From ["pysplinefit"] ["basis"];
  Import ["pytest"] "pytest";
  Import ["numpy"] "np";
  Member (Fun [] "test_basis_functions" 17);
  Member (Fun [] "test_basis_functions2" 35);
  Member (Fun [] "test_basis_function_ders" 51);
  Member (Fun [] "test_one_basis_function" 72);
  Member (Fun [] "test_one_basis_function_ders" 92)].
(** tests/test_data.py *)
Definition src_tests_test_data : list stmt := [
  FromHere ["context"] ["pysplinefit"];
  FromHere ["context"] ["np"];
  From ["pysplinefit"] ["data"];
  Import ["pytest"] "pytest";
  Member (Fun ["pytest"] "bound" 18);
  Member (Fun [] "test_boundary_degree" 28);
  Member (Fun [] "test_boundary_start" 32);
  Member (Fun [] "test_boundary_end" 37);
  Member (Fun [] "test_boundary_num_ctrlpts" 42);
  Member (Fun ["pytest"] "interior" 47);
  Member (Fun [] "test_interior_degree" 56);
  Member (Fun [] "test_interior_num_ctrlpts" 60)].
(** tests/test_knots.py *)
Definition src_tests_test_knots : list stmt := [
  FromHere ["context"] ["pysplinefit"];
  FromHere ["context"] ["np"];
  From ["pysplinefit"] ["knots"];
  Import ["pytest"] "pytest";
  Member (Fun ["pytest"] "test_find_span" 29);
  Member (Fun [] "test_normalize" 40);
  Member (Fun [] "test_check" 51);
  Member (Fun [] "test_check2" 63);
  Member (Fun [] "test_check3" 75);
  Member (Fun [] "test_generate" 87);
  Member (Fun [] "test_generate2" 100);
  Member (Fun [] "test_generate3" 113);
  Member (Fun [] "test_multiplicity" 126);
  Member (Fun [] "test_multiplicity2" 139);
  Member (Fun [] "test_multiplicity3" 152)].
(** tests/test_parameterize.py *)
Definition src_tests_test_parameterize : list stmt := [
  FromHere ["context"] ["pysplinefit"];
  FromHere ["context"] ["np"];
  From ["pysplinefit"] ["spline"];
  From ["pysplinefit"] ["parameterize"];
  From ["pysplinefit"] ["knots"];
  Import ["pytest"] "pytest";
  Member (Fun ["pytest"] "curve" 20);
  Member (Fun [] "test_initial_guess_curve" 33);
  Member (Fun ["pytest"] "test_curve_inversion" 49);
  Member (Fun [] "test_parameterize_curve" 59);
  Member (Fun ["pytest"] "surf" 71);
  Member (Fun [] "test_initial_guess_surf" 100);
  Member (Fun ["pytest"] "test_surf_inversion" 119)].
(** tests/test_spline.py *)
Definition src_tests_test_spline : list stmt := [
  FromHere ["context"] ["pysplinefit"];
  FromHere ["context"] ["np"];
  From ["pysplinefit"] ["spline"];
  From ["pysplinefit"] ["knots"];
  Import ["pytest"] "pytest";
  Member (Fun ["pytest"] "curve" 19);
  Member (Fun [] "test_curve_degree" 32);
  Member (Fun [] "test_curve_control_points" 36);
  Member (Fun [] "test_curve_knot_vector" 47);
  Member (Fun [] "test_curve_control_point_guard" 55);
  Member (Fun [] "test_curve_knot_vector_guard" 67);
  Member (Fun [] "test_curve_knot_vector_guard2" 76);
  Member (Fun ["pytest"] "curve2" 88);
  Member (Fun ["pytest"] "test_curve_single_point" 112);
  Member (Fun [] "test_curve_points" 120);
  Member (Fun ["pytest"] "test_curve_derivpt" 144);
  Member (Fun ["pytest"] "test_curve_deriv1" 160);
  Member (Fun [] "test_curve_insertion" 170);
  Member (Fun [] "test_curve_insertion2" 186);
  Member (Fun [] "test_curve_insertion3" 199);
  Member (Fun ["pytest"] "surf" 210);
  Member (Fun [] "test_surf_deg_u" 236);
  Member (Fun [] "test_surf_deg_v" 241);
  Member (Fun [] "test_surf_num_ctrlpts_u" 246);
  Member (Fun [] "test_surf_num_ctrlpts_v" 251);
  Member (Fun [] "test_surf_ctrlpts" 256);
  Member (Fun [] "test_knot_vector_u" 269);
  Member (Fun [] "test_knot_vector_v" 278);
  Member (Fun [] "test_surf_control_pt_guard_u" 287);
  Member (Fun [] "test_surf_control_pt_guard_v" 302);
  Member (Fun [] "test_surf_knot_vector_guard_u" 317);
  Member (Fun [] "test_surf_knot_vector_guard_u2" 337);
  Member (Fun [] "test_surf_knot_vector_guard_v" 359);
  Member (Fun [] "test_surf_knot_vector_guard_v2" 379);
  Member (Fun ["pytest"] "surf2" 402);
  Member (Fun ["pytest"] "test_surf_single_point" 438);
  Member (Fun [] "test_surf_points" 448);
  Member (Fun ["pytest"] "test_surf_derivpt" 483);
  Member (Fun ["pytest"] "test_surf_derivu1" 503);
  Member (Fun ["pytest"] "test_surf_derivu2" 524);
  Member (Fun ["pytest"] "test_surf_derivv1" 545);
  Member (Fun ["pytest"] "test_surf_derivv2" 566);
  Member (Fun ["pytest"] "test_surf_derivuv" 587)].
Definition project : list (path * source) := [
  (["spline"], Pkg);
  (["spline"; "algorithms"], Pkg);
  (["spline"; "algorithms"; "basis"], Mod src_spline_algorithms_basis);
  (["spline"; "algorithms"; "knots"], Mod src_spline_algorithms_knots);
  (["spline"; "model"], Pkg);
  (["spline"; "model"; "base_geometry"], Mod src_spline_model_base_geometry);
  (["spline"; "model"; "bspline"], Mod src_spline_model_bspline);
  (["spline"; "util"], Pkg);
  (["spline"; "util"; "validation"], Mod src_spline_util_validation);
  (["fit"], Pkg);
  (["fit"; "algorithms"], Pkg);
  (["fit"; "algorithms"; "fitting"], Mod src_fit_algorithms_fitting);
  (["fit"; "algorithms"; "initialization"], Mod src_fit_algorithms_initialization);
  (["fit"; "algorithms"; "parameterize"], Mod src_fit_algorithms_parameterize);
  (["fit"; "io"], Pkg);
  (["fit"; "io"; "base_io"], Mod src_fit_io_base_io);
  (["fit"; "io"; "curve"], Mod src_fit_io_curve);
  (["fit"; "io"; "text"], Mod src_fit_io_text);
  (["fit"; "model"], Pkg);
  (["fit"; "model"; "base_data"], Mod src_fit_model_base_data);
  (["tests"], Pkg);
  (["tests"; "context"], Mod src_tests_context);
  (["tests"; "test_basis"], Mod src_tests_test_basis);
  (["tests"; "test_data"], Mod src_tests_test_data);
  (["tests"; "test_knots"], Mod src_tests_test_knots);
  (["tests"; "test_parameterize"], Mod src_tests_test_parameterize);
  (["tests"; "test_spline"], Mod src_tests_test_spline)].

(** * Names *)
Fixpoint path_eqb (p q : path) : bool :=
  match p, q with
  | [], [] => true
  | x :: p, y :: q => String.eqb x y && path_eqb p q
  | _, _ => false
  end.
Definition mem (x : string) (l : list string) : bool := existsb (String.eqb x) l.
(** Sets of names, in alphabetical order. *)
Fixpoint add_name (x : string) (l : list string) : list string :=
  match l with
  | [] => [x]
  | y :: t => match String.compare x y with
              | Lt => x :: l
              | Eq => l
              | Gt => y :: add_name x t
              end
  end.
Definition builtins : list string := ["property"; "classmethod"].
Definition module_names : list string := ["__file__"].

(** The first name that is not bound raises NameError. *)
Definition uses_ok (globals locals : list string) (uses : list string) : res unit :=
  if forallb (fun x => mem x locals || mem x globals || mem x builtins) uses
  then Ok tt else Err NameError.

(** Definition of a function or class with the given global and class scope;
    returns the class scope afterwards.  A class body runs in a scope of its
    own, from which the enclosing class scope is not visible. *)
Fixpoint define (globals locals : list string) (m : member) : res (list string) :=
  match m with
  | Fun uses f _ => let* _ := uses_ok globals locals uses in Ok (add_name f locals)
  | Cls uses c _ body =>
      let* _ := uses_ok globals locals uses in
      let* _ := (fix run (l : list member) (scope : list string) : res (list string) :=
                   match l with
                   | [] => Ok scope
                   | x :: t => let* scope := define globals scope x in run t scope
                   end) body [] in
      Ok (add_name c locals)
  end.

(** * The import system *)
(** [sys.modules], restricted to the project: one entry per module, the names
    bound in it if it is present. *)
Definition modules := list (path * option (list string)).

Fixpoint lookup {A} (l : list (path * A)) (p : path) : option A :=
  match l with
  | [] => None
  | (q, a) :: t => if path_eqb q p then Some a else lookup t p
  end.
Definition loaded (st : modules) (p : path) : option (list string) :=
  match lookup st p with Some (Some e) => Some e | _ => None end.
Definition store (st : modules) (p : path) (e : option (list string)) : modules :=
  map (fun x => if path_eqb (fst x) p then (p, e) else x) st.
Definition bind_name (st : modules) (p : path) (x : string) : modules :=
  match loaded st p with Some e => store st p (Some (add_name x e)) | None => st end.
Definition parent (p : path) : path := removelast p.
Definition imports := modules -> path -> modules * res unit.

Section Importer.
Variable sources : list (path * source).
Variable outside : path -> bool.                  (* modules from elsewhere *)
Variable imp : imports.                           (* nested imports *)

(** [from q import n] after the import of [q]. *)
Definition from_name (here q : path) (st : modules) (n : string) : modules * res unit :=
  if outside q then (bind_name st here n, Ok tt)
  else match loaded st q with
       | None => (st, Err KeyError)
       | Some e =>
           if mem n e then (bind_name st here n, Ok tt)
           else match lookup sources q with
                | Some Pkg =>
                    match lookup sources (q ++ [n])%list with
                    | None => (st, Err ImportError)
                    | Some _ =>
                        match imp st (q ++ [n])%list with
                        | (st, Ok _) => (bind_name st here n, Ok tt)
                        | (st, r) => (st, r)
                        end
                    end
                | _ => (st, Err ImportError)
                end
       end.
Fixpoint from_names (here q : path) (st : modules) (l : list string) : modules * res unit :=
  match l with
  | [] => (st, Ok tt)
  | n :: t => match from_name here q st n with
              | (st, Ok _) => from_names here q st t
              | (st, r) => (st, r)
              end
  end.

Definition exec (here : path) (st : modules) (s : stmt) : modules * res unit :=
  let globals := match loaded st here with Some e => e | None => [] end in
  match s with
  | Import p x =>
      match imp st p with
      | (st, Ok _) => (bind_name st here x, Ok tt)
      | (st, r) => (st, r)
      end
  | From p names =>
      match imp st p with
      | (st, Ok _) => from_names here p st names
      | (st, r) => (st, r)
      end
  | FromHere p names =>
      let q := app (parent here) p in
      match imp st q with
      | (st, Ok _) => from_names here q st names
      | (st, r) => (st, r)
      end
  | Eval uses => (st, uses_ok globals [] uses)
  | Member m =>
      match define globals [] m with
      | Ok names => (fold_left (fun st x => bind_name st here x) names st, Ok tt)
      | Err e => (st, Err e)
      | Diverge => (st, Diverge)
      end
  end.
Fixpoint exec_all (here : path) (st : modules) (l : list stmt) : modules * res unit :=
  match l with
  | [] => (st, Ok tt)
  | s :: t => match exec here st s with
              | (st, Ok _) => exec_all here st t
              | (st, r) => (st, r)
              end
  end.

(** Import of a module whose parent is loaded. *)
Definition load (st : modules) (p : path) : modules * res unit :=
  match lookup sources p with
  | None => (st, Err ModuleNotFoundError)
  | Some src =>
      let st := store st p (Some module_names) in
      match exec_all p st (match src with Pkg => [] | Mod body => body end) with
      | (st, Ok _) => (bind_name st (parent p) (last p ""), Ok tt)
      | (st, r) => (store st p None, r)
      end
  end.
Definition import_step (st : modules) (p : path) : modules * res unit :=
  if outside p then (st, Ok tt)
  else match loaded st p with
       | Some _ => (st, Ok tt)
       | None =>
           match parent p with
           | [] => load st p
           | q => match imp st q with
                  | (st, Ok _) => load st p
                  | (st, r) => (st, r)
                  end
           end
       end.
End Importer.

(** [import p] with nested imports at most [fuel] deep; [Diverge] if deeper. *)
Fixpoint import_module (sources : list (path * source)) (outside : path -> bool) (fuel : nat)
  : imports :=
  match fuel with
  | O => fun st _ => (st, Diverge)
  | S k => import_step sources outside (import_module sources outside k)
  end.

(** A sequence of imports in one process; a failing one is caught. *)
Definition after (sources : list (path * source)) (outside : path -> bool) (fuel : nat)
  (st : modules) (l : list path) : modules :=
  fold_left (fun st p => fst (import_module sources outside fuel st p)) l st.
Definition nothing_loaded (sources : list (path * source)) : modules :=
  map (fun x => (fst x, None)) sources.

(** What a fresh interpreter with the repository on its path finds outside it. *)
Definition environment (numpy : bool) (p : path) : bool :=
  match p with
  | [x] => mem x ["abc"; "json"; "os"; "sys"; "pytest"] || (String.eqb x "numpy" && numpy)
  | _ => false
  end.

(** The project with [import abc] added to the two base modules. *)
Definition add_abc (x : path * source) : path * source :=
  match x with
  | (p, Mod body) =>
      if path_eqb p ["spline"; "model"; "base_geometry"] || path_eqb p ["fit"; "io"; "base_io"]
      then (p, Mod (Import ["abc"] "abc" :: body)) else x
  | _ => x
  end.
Definition project_abc : list (path * source) := map add_abc project.
(** ... and with the surface base class indented like the curve base class:
    what follows a class statement inside a class body becomes the body of a
    class of its own (base_geometry.py:157-347). *)
Fixpoint cut_class (body : list member) : list member * option member :=
  match body with
  | [] => ([], None)
  | Cls uses c line _ :: t => ([], Some (Cls uses c line t))
  | m :: t => let (a, b) := cut_class t in (m :: a, b)
  end.
Definition dedent (s : stmt) : list stmt :=
  match s with
  | Member (Cls uses c line body) =>
      match cut_class body with
      | (a, Some m) => [Member (Cls uses c line a); Member m]
      | (_, None) => [s]
      end
  | _ => [s]
  end.
Definition project_flat : list (path * source) :=
  map (fun x => match x with (p, Mod body) => (p, Mod (flat_map dedent body)) | _ => x end) project_abc.

(** The definition a class attribute refers to once the body has run: the last. *)
Definition member_name (m : member) : string := match m with Fun _ f _ => f | Cls _ c _ _ => c end.
Definition member_line (m : member) : Z := match m with Fun _ _ l => l | Cls _ _ l _ => l end.
Definition attribute (body : list member) (x : string) : option Z :=
  option_map member_line (find (fun m => String.eqb (member_name m) x) (rev body)).
Definition class_body (src : list stmt) (c : string) : list member :=
  match find (fun s => match s with Member (Cls _ x _ _) => String.eqb x c | _ => false end) src with
  | Some (Member (Cls _ _ _ b)) => b
  | _ => []
  end.
