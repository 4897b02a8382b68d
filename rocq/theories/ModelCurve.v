(** Model of the curve classes: spline/model/base_geometry.py (SplineGeometry,
    SplineCurve) and spline/model/bspline.py (BSplineCurve).

    In the repository the text of [SplineSurface]'s methods is indented one
    level too little or its class header one level too much
    (base_geometry.py:157-346): read literally, they are methods of
    [SplineCurve].  The model reads the two classes as evidently intended
    (de-nested); that the literal module cannot even be imported is modelled in
    ModelImport.v. *)
From Verif Require Import Py Num ModelKnots ModelBasis.
Open Scope Z_scope.

Section Curve.
Context {K : Num}.

(** [shape[-1]] of a 2-D array given as its rows (an array without rows is
    taken to have width 0, as [np.array([])]). *)
Definition width (m : list (list K)) : Z :=
  match m with [] => 0 | r :: _ => zlen r end.

(** Instance attributes _degree, _control_points, _knot_vector, _dimension
    (base_geometry.py:18-19, 42-46); [None] is Python's None. *)
Record curve_obj := mkCurve {
  c_degree : option Z;
  c_ctrl : option (list (list K));
  c_kv : option (list K);
  c_dim : Z
}.

(** base_geometry.py:42-46 and 18-19: the [SplineCurve] constructor; the keyword
    arguments are stored unchecked. *)
Definition curve_init (degree dimension : option Z) : curve_obj :=
  mkCurve degree None None (match dimension with Some d => d | None => 0 end).

(** base_geometry.py:52-56. *)
Definition set_degree (c : curve_obj) (degree : Z) : res curve_obj :=
  if degree <? 1 then Err ValueError
  else Ok (mkCurve (Some degree) (c_ctrl c) (c_kv c) (c_dim c)).

(** base_geometry.py:62-69: the setter only validates, it does not assign. *)
Definition set_control_points (c : curve_obj) (a : list (list K)) : res curve_obj :=
  match c_degree c with
  | None => Err ValueError
  | Some _ => if negb (width a =? c_dim c) then Err ValueError else Ok c
  end.

(** base_geometry.py:75-84 with BSplineCurve._check_knot_vector
    (bspline.py:173-176). *)
Definition set_knot_vector (c : curve_obj) (kv : arraylike K) : res curve_obj :=
  match c_degree c with
  | None => Err ValueError
  | Some p =>
      match c_ctrl c with
      | None => Err ValueError
      | Some P =>
          let* ok := check_knot_vector p kv (zlen P) in
          if ok then
            Ok (mkCurve (c_degree c) (c_ctrl c)
                  (Some (match kv with NdArray l | PyList l => l end)) (c_dim c))
          else Ok c
      end
  end.

(** The attributes as numbers, for the method bodies; a missing one is the
    [TypeError] of [len(None)], [None[...]] or arithmetic on None. *)
Definition curve_fields (c : curve_obj) : res (Z * list (list K) * list K) :=
  match c_ctrl c, c_kv c, c_degree c with
  | Some P, Some kv, Some p => Ok (p, P, kv)
  | _, _, _ => Err TypeError
  end.

(** bspline.py:36-44, the body of [single_point] after validation. *)
Definition curve_point (p : Z) (P : list (list K)) (kv : list K) (knot : K) : res (list K) :=
  let* knot_span := find_span (zlen P) p knot kv in
  let* basis_funs := basis_functions knot_span knot p kv in
  let active := slice P (knot_span - p) (knot_span + 1) in
  let* cx := acol active 0 in
  let* x := matmul11 basis_funs cx in
  let* cy := acol active 1 in
  let* y := matmul11 basis_funs cy in
  let* cz := acol active 2 in
  let* z := matmul11 basis_funs cz in
  Ok [x; y; z].

(** bspline.py:19-44. *)
Definition single_point (c : curve_obj) (knot : K) : res (list K) :=
  if negb (validate_knot knot) then Err ValueError else
  let* f := curve_fields c in
  let '(p, P, kv) := f in curve_point p P kv knot.

(** An array argument by rank; ranks above 2 carry no data. *)
Inductive ndarray := ND0 (x : K) | ND1 (l : list K) | ND2 (m : list (list K)) | NDhigh (rank : Z).

(** bspline.py:46-66. *)
Definition points (c : curve_obj) (a : ndarray) : res (list (list K)) :=
  match a with
  | ND1 l => mapM (single_point c) l
  | _ => Err ValueError
  end.

(** bspline.py:101-107, one row of the derivative array. *)
Definition curve_deriv_row (normalize : bool) (ders active : list (list K)) (row : Z)
  (derivs : list (list K)) : res (list (list K)) :=
  let* b := acol ders row in
  let* c1 := acol active 1 in
  let* v1 := matmul11 b c1 in
  let* c2 := acol active 2 in
  let* v2 := matmul11 b c2 in
  let val := [v1; v2] in
  let val := if normalize && negb (isclose (vnorm val) 0%num) && negb (row =? 0)
             then map (fun x => (x / vnorm val)%num) val else val in
  aset_row derivs row val.

(** bspline.py:68-109 ([order] is already an int). *)
Definition derivatives (c : curve_obj) (knot : K) (order : Z) (normalize : bool)
  : res (list (list K)) :=
  if negb (validate_knot knot) then Err ValueError else
  if order <=? 1 then Err ValueError else
  let* f := curve_fields c in
  let '(p, P, kv) := f in
  let max_order := Z.min order p in
  let* knot_span := find_span (zlen P) p knot kv in
  let* ders := basis_function_ders knot_span knot p kv max_order in
  let active := slice P (knot_span - p) (knot_span + 1) in
  let* derivs := np_full2 (max_order + 1) 3 (0 : K)%num in
  for_range 0 (zlen derivs) (curve_deriv_row normalize ders active) derivs.

(** bspline.py:111-128, the body once the local [knot] holds a value. *)
Definition insert_knot_body (c : curve_obj) (knot_val knot : K) : res curve_obj :=
  if negb (validate_knot knot) then Err ValueError else
  let* f := curve_fields c in
  let '(p, P, kv) := f in
  let* r := curve_knot_insertion p kv P knot_val 1 in
  let* c := set_control_points c (snd r) in
  set_knot_vector c (NdArray (fst r)).

(** bspline.py:111-128.  The parameter is called [knot_val]; line 119,
    [knot = float(knot)], makes [knot] a local and reads it before any
    assignment: the local starts unassigned ([None]). *)
Definition insert_knot (c : curve_obj) (knot_val : K) : res curve_obj :=
  let knot : option K := None in
  match knot with
  | None => Err UnboundLocalError
  | Some x => insert_knot_body c knot_val x
  end.

(** [x.to_list()] where [x] is None or a numpy array: neither has an attribute
    of this name (numpy's method is [tolist]). *)
Definition to_list_attr {A} (x : option A) : res A :=
  match x with None => Err AttributeError | Some _ => Err AttributeError end.

(** bspline.py:158-171. *)
Definition to_dict (c : curve_obj) : res (option Z * list K * list (list K)) :=
  let* kv := to_list_attr (c_kv c) in
  let* P := to_list_attr (c_ctrl c) in
  Ok (c_degree c, kv, P).

(** Requests a user can make of a curve object, and their effect.  The second
    component is the exception raised, if any. *)
Inductive curve_op :=
| OpDegree (d : Z)
| OpControlPoints (a : list (list K))
| OpKnotVector (kv : arraylike K)
| OpInsertKnot (u : K).
Definition curve_step (c : curve_obj) (o : curve_op) : curve_obj * option exn :=
  let r := match o with
           | OpDegree d => set_degree c d
           | OpControlPoints a => set_control_points c a
           | OpKnotVector kv => set_knot_vector c kv
           | OpInsertKnot u => insert_knot c u
           end in
  match r with
  | Ok c' => (c', None)
  | Err e => (c, Some e)
  | Diverge => (c, None)
  end.
Definition curve_run (c : curve_obj) (ops : list curve_op) : curve_obj :=
  fold_left (fun c o => fst (curve_step c o)) ops c.

(** ** from_dict (bspline.py:130-156) works on the class object. *)

(** Class attributes [control_points] and [knot_vector] once they have been
    overwritten by plain arrays; [None] while they are still properties. *)
Record class_state := mkClass {
  k_ctrl : option (list (list K));
  k_kv : option (list K)
}.
Inductive key := KDegree | KKnotVector | KControlPoints | KOther (n : Z).
Definition key_eqb (a b : key) : bool :=
  match a, b with
  | KDegree, KDegree | KKnotVector, KKnotVector | KControlPoints, KControlPoints => true
  | KOther m, KOther n => m =? n
  | _, _ => false
  end.
(** A decoded dictionary: its key set and the three values (only looked at when
    the keys are right). *)
Record dict := mkDict {
  d_keys : list key;
  d_degree : Z;
  d_kv : list K;
  d_ctrl : list (list K)
}.
Definition needed_keys : list key := [KDegree; KKnotVector; KControlPoints].
(** [needed_keys ^ data.keys()] is empty. *)
Definition same_keys (ks : list key) : bool :=
  forallb (fun k => existsb (key_eqb k) ks) needed_keys &&
  forallb (fun k => existsb (key_eqb k) needed_keys) ks.
(** The object returned: the class itself. *)
Inductive handle := TheClass.
Definition from_dict (cs : class_state) (d : dict) : class_state * res handle :=
  if negb (same_keys (d_keys d)) then (cs, Err ValueError)
  else (mkClass (Some (d_ctrl d)) (Some (d_kv d)), Ok TheClass).
(** [result.control_points], [result.knot_vector]. *)
Definition handle_ctrl (cs : class_state) (h : handle) : option (list (list K)) := k_ctrl cs.
Definition handle_kv (cs : class_state) (h : handle) : option (list K) := k_kv cs.

End Curve.
Arguments curve_obj K : clear implicits.
Arguments ndarray K : clear implicits.
Arguments curve_op K : clear implicits.
Arguments class_state K : clear implicits.
Arguments dict K : clear implicits.
