(** The geometry classes exactly as base_geometry.py is indented.

    [SplineSurface] (base_geometry.py:157-172) is a class nested in
    [SplineCurve] whose body is a docstring; the methods meant for it
    (lines 174-346) are methods of [SplineCurve].  Definitions of the same name
    replace earlier ones, so a curve's constructor is the one at line 174 and its
    [control_points] property the one at line 231; [degree] (49-56) and
    [knot_vector] (72-84) are the curve's own.  As the module does not import
    (ModelImport.v), this describes the classes after the missing [import abc] has
    been added and [SplineCurve.SplineSurface] is used for the surface base. *)
From Coq Require Import String.
From Verif Require Import Py Num ModelKnots ModelBasis ModelCurve ModelSurface.
Open Scope string_scope.
Open Scope Z_scope.

Section Nested.
Context {K : Num}.

(** A [BSplineCurve] instance: the attributes of lines 175-181 and [_dimension]
    (shared with ModelSurface.v), and [_degree] and [_knot_vector], which do not
    exist ([None]) until a setter creates them. *)
Record nested := mkNested {
  n_surf : surf_obj K;
  n_degree : option Z;
  n_kv : option (list K)
}.

(** base_geometry.py:174-182.  The keyword [degree] is accepted and ignored. *)
Definition nested_init (degree degree_u degree_v dimension : option Z) : res nested :=
  let* o := surface_init CBCurve degree_u degree_v dimension in
  Ok (mkNested o None None).

(** The [degree], [control_points] and [knot_vector] getters
    (base_geometry.py:49-50, 231-232, 72-73). *)
Definition get_degree (c : nested) : res Z :=
  match n_degree c with None => Err AttributeError | Some d => Ok d end.
Definition get_ctrl (c : nested) : option (list (list K)) := o_ctrl (n_surf c).
Definition get_kv (c : nested) : res (list K) :=
  match n_kv c with None => Err AttributeError | Some l => Ok l end.

(** base_geometry.py:52-56. *)
Definition nested_degree (c : nested) (d : Z) : res nested :=
  if d <? 1 then Err ValueError else Ok (mkNested (n_surf c) (Some d) (n_kv c)).
(** The setters of lines 188-281, unchanged by the nesting. *)
Definition on_surf (c : nested) (r : res (surf_obj K)) : res nested :=
  let* o := r in Ok (mkNested o (n_degree c) (n_kv c)).
(** base_geometry.py:75-84 with bspline.py:173-176. *)
Definition nested_knots (c : nested) (kv : arraylike K) : res nested :=
  match n_degree c with
  | None => Err AttributeError
  | Some p =>
      match get_ctrl c with
      | None => Err ValueError
      | Some P =>
          let* ok := check_knot_vector p kv (zlen P) in
          if ok then
            Ok (mkNested (n_surf c) (n_degree c)
                  (Some (match kv with NdArray l | PyList l => l end)))
          else Ok c
      end
  end.

(** bspline.py:34-44: [len(self._control_points)] is evaluated first. *)
Definition nested_point (c : nested) (u : K) : res (list K) :=
  if negb (validate_knot u) then Err ValueError else
  match get_ctrl c with
  | None => Err TypeError
  | Some P =>
      match n_degree c, n_kv c with
      | Some p, Some kv => curve_point p P kv u
      | _, _ => Err AttributeError
      end
  end.

(** Requests of a user of such an object.  [insert_knot] fails as in
    ModelCurve.v (bspline.py:119). *)
Inductive nested_op :=
| NDegree (d : Z) | NCtrl (a : list (list K)) | NKnots (kv : arraylike K) | NInsert (u : K)
| NDegreeU (d : Z) | NDegreeV (d : Z) | NNumU (n : Z) | NNumV (n : Z)
| NKnotsU (kv : arraylike K) | NKnotsV (kv : arraylike K).
Definition nested_apply (c : nested) (o : nested_op) : res nested :=
  match o with
  | NDegree d => nested_degree c d
  | NCtrl a => on_surf c (set_surf_ctrl (n_surf c) a)
  | NKnots kv => nested_knots c kv
  | NInsert u => Err UnboundLocalError
  | NDegreeU d => on_surf c (set_degree_u (n_surf c) d)
  | NDegreeV d => on_surf c (set_degree_v (n_surf c) d)
  | NNumU n => on_surf c (set_num_u (n_surf c) n)
  | NNumV n => on_surf c (set_num_v (n_surf c) n)
  | NKnotsU kv => on_surf c (set_knot_vector_u (n_surf c) kv)
  | NKnotsV kv => on_surf c (set_knot_vector_v (n_surf c) kv)
  end.
Definition nested_step (c : nested) (o : nested_op) : nested * option exn :=
  match nested_apply c o with
  | Ok c' => (c', None)
  | Err e => (c, Some e)
  | Diverge => (c, None)
  end.
Definition nested_run (c : nested) (ops : list nested_op) : nested :=
  fold_left (fun c o => fst (nested_step c o)) ops c.

(** ** A [BSplineSurface] instance: no properties, only plain attributes. *)
Inductive value := VNone | VInt (z : Z) | VVec (l : list K) | VMat (m : list (list K)).
Definition attrs := string -> option value.
(** base_geometry.py:18-19, the only constructor; other keywords are ignored. *)
Definition geometry_init (dimension : option Z) : attrs := fun n =>
  if String.eqb n "_dimension" then Some (VInt (match dimension with Some d => d | None => 0 end))
  else None.
(** [s.name = v].  ([dimension] is the only property and cannot be assigned.) *)
Definition assign (a : attrs) (n : string) (v : value) : res attrs :=
  if String.eqb n "dimension" then Err AttributeError
  else Ok (fun m => if String.eqb m n then Some v else a m).
Definition assign_all (a : attrs) (l : list (string * value)) : attrs :=
  fold_left (fun a x => match assign a (fst x) (snd x) with Ok a' => a' | _ => a end) l a.
Definition read (a : attrs) (n : string) : res value :=
  match a n with None => Err AttributeError | Some v => Ok v end.
(** bspline.py:199-226; attributes of the wrong type are a TypeError (the order
    of these errors is not modelled). *)
Definition attrs_point (a : attrs) (u v : K) : res (list K) :=
  if negb (validate_knot u) then Err ValueError else
  if negb (validate_knot v) then Err ValueError else
  let* nu := read a "_num_ctrlpts_u" in
  let* pu := read a "_degree_u" in
  let* ku := read a "_knot_vector_u" in
  let* nv := read a "_num_ctrlpts_v" in
  let* pv := read a "_degree_v" in
  let* kv := read a "_knot_vector_v" in
  let* P := read a "_control_points" in
  match nu, pu, ku, nv, pv, kv, P with
  | VInt nu, VInt pu, VVec ku, VInt nv, VInt pv, VVec kv, VMat P =>
      surf_point (mkSurf pu pv nu nv P ku kv) u v
  | _, _, _, _, _, _, _ => Err TypeError
  end.
End Nested.
Arguments nested K : clear implicits.
Arguments nested_op K : clear implicits.
Arguments value K : clear implicits.
Arguments attrs K : clear implicits.
