(** Model of fit/algorithms/initialization.py.

    The module builds its result with [spline.Curve()], a class the repository
    does not contain (spline/ has BSplineCurve only, and its control point
    setter does not assign, base_geometry.py:62-69).  The model takes the class
    as a parameter: a blank object and a control point setter; the degree and
    knot vector setters are those of base_geometry.py:52-56, 75-84.  Two
    instances: [initialize_curve], where the control point setter assigns (what
    the module evidently expects), and [initialize_curve_repo] with the curve
    class of the repository. *)
From Verif Require Import Py Num ModelKnots ModelCurve.
Open Scope Z_scope.

Section Init.
Context {K : Num}.

(** [np.column_stack((x, y, z))] of three vectors of equal length. *)
Definition column_stack3 (x y z : list K) : list (list K) :=
  map (fun t => [fst (fst t); snd (fst t); snd t]) (combine (combine x y) z).

(** initialization.py:14-56. *)
Definition initialize_curve_with (blank : curve_obj K)
  (set_ctrl : curve_obj K -> list (list K) -> res (curve_obj K))
  (start stop : list K) (degree num_ctrlpts : Z) : res (curve_obj K) :=
  if negb (degree <=? num_ctrlpts) then Err ValueError else
  let* curve := set_degree blank degree in
  let* s0 := aget start 0 in
  let* e0 := aget stop 0 in
  let* x_vals := np_linspace s0 e0 num_ctrlpts in
  let* s1 := aget start 1 in
  let* e1 := aget stop 1 in
  let* y_vals := np_linspace s1 e1 num_ctrlpts in
  let* s2 := aget start 2 in
  let* e2 := aget stop 2 in
  let* z_vals := np_linspace s2 e2 num_ctrlpts in
  let init_ctrlpts := column_stack3 x_vals y_vals z_vals in
  let* curve := set_ctrl curve init_ctrlpts in
  let* init_knot_vector := generate_uniform degree (zlen init_ctrlpts) in
  set_knot_vector curve (NdArray init_knot_vector).

(** A control point setter that assigns. *)
Definition store_ctrl (c : curve_obj K) (a : list (list K)) : res (curve_obj K) :=
  Ok (mkCurve (c_degree c) (Some a) (c_kv c) (c_dim c)).

Definition initialize_curve := initialize_curve_with (curve_init None None) store_ctrl.
Definition initialize_curve_repo := initialize_curve_with (curve_init None None) set_control_points.
End Init.
