(** Model of the surface classes: base_geometry.py:157-346 (read as a class of
    its own, see ModelCurve.v) and bspline.py:179-328. *)
From Verif Require Import Py Num ModelKnots ModelBasis ModelCurve.
Open Scope Z_scope.

Section Surface.
Context {K : Num}.

(** Attributes used by the method bodies of BSplineSurface (bspline.py:205-222):
    _degree_u/_v, _num_ctrlpts_u/_v, _knot_vector_u/_v, _control_points. *)
Record surf := mkSurf {
  s_pu : Z; s_pv : Z;
  s_nu : Z; s_nv : Z;
  s_ctrl : list (list K);
  s_ku : list K; s_kv : list K
}.

(** [np.reshape(l, (nu, nv))] of a 1-D array.  (numpy also accepts one
    dimension -1, to be inferred; the counts are never negative here, and the
    model treats -1 like any other negative number.) *)
Definition reshape (l : list K) (nu nv : Z) : res (list (list K)) :=
  if (nu <? 0) || (nv <? 0) || negb (zlen l =? nu * nv) then Err ValueError
  else Ok (map (fun i => firstn (Z.to_nat nv) (skipn (Z.to_nat (i * nv)) l)) (zrange 0 nu)).

(** [m[a:b, c:d]]. *)
Definition slice2 (m : list (list K)) (a b c d : Z) : list (list K) :=
  map (fun r => slice r c d) (slice m a b).

(** [v @ m] for a vector and a matrix given by rows ([w] columns). *)
Definition vecmat (v : list K) (m : list (list K)) : res (list K) :=
  if zlen v =? zlen m then
    mapM (fun j => let* c := acol m j in matmul11 v c) (zrange 0 (width m))
  else Err ValueError.

(** [bu @ m @ bv]. *)
Definition bilinear (bu : list K) (m : list (list K)) (bv : list K) : res K :=
  let* t := vecmat bu m in matmul11 t bv.

(** bspline.py:209-215 (and 291-297): the three coordinate columns, then the
    three nets. *)
Definition surf_arrays (s : surf) : res (list (list K) * list (list K) * list (list K)) :=
  let* cx := acol (s_ctrl s) 0 in
  let* cy := acol (s_ctrl s) 1 in
  let* cz := acol (s_ctrl s) 2 in
  let* xa := reshape cx (s_nu s) (s_nv s) in
  let* ya := reshape cy (s_nu s) (s_nv s) in
  let* za := reshape cz (s_nu s) (s_nv s) in
  Ok (xa, ya, za).

(** bspline.py:217-224 (and 308-312): the block active on spans [us], [vs] of
    each net, contracted with the two weight vectors. *)
Definition surf_contract (s : surf) (us vs : Z) (arrays : list (list K) * list (list K) * list (list K))
  (bu bv : list K) : res (list K) :=
  let active arr := slice2 arr (us - s_pu s) (us + 1) (vs - s_pv s) (vs + 1) in
  let '(xa, ya, za) := arrays in
  let* x := bilinear bu (active xa) bv in
  let* y := bilinear bu (active ya) bv in
  let* z := bilinear bu (active za) bv in
  Ok [x; y; z].

(** bspline.py:182-226. *)
Definition surf_point (s : surf) (u v : K) : res (list K) :=
  if negb (validate_knot u) then Err ValueError else
  if negb (validate_knot v) then Err ValueError else
  let* us := find_span (s_nu s) (s_pu s) u (s_ku s) in
  let* vs := find_span (s_nv s) (s_pv s) v (s_kv s) in
  let* bu := basis_functions us u (s_pu s) (s_ku s) in
  let* bv := basis_functions vs v (s_pv s) (s_kv s) in
  let* arrays := surf_arrays s in
  surf_contract s us vs arrays bu bv.

(** bspline.py:228-247; each row needs two entries. *)
Definition surf_points (s : surf) (a : ndarray K) : res (list (list K)) :=
  match a with
  | ND2 m => mapM (fun r => let* u := aget r 0 in let* v := aget r 1 in surf_point s u v) m
  | _ => Err ValueError
  end.

(** bspline.py:306-317, one entry of the derivative array; state (index, derivs). *)
Definition surf_deriv_entry (s : surf) (normalize : bool) (us vs : Z)
  (arrays : list (list K) * list (list K) * list (list K))
  (du dv : list (list K)) (u_row v_row : Z) (st : Z * list (list K))
  : res (Z * list (list K)) :=
  let* bu := acol du u_row in
  let* bv := acol dv v_row in
  let* val := surf_contract s us vs arrays bu bv in
  let val := if normalize && negb (isclose (vnorm val) 0%num) && negb (fst st =? 0)
             then map (fun x => (x / vnorm val)%num) val else val in
  let* d := aset_row (snd st) (fst st) val in
  Ok (fst st + 1, d).

(** bspline.py:249-319. *)
Definition surf_derivatives (s : surf) (u v : K) (order_u order_v : Z) (normalize : bool)
  : res (list (list K)) :=
  if negb (validate_knot u) then Err ValueError else
  if negb (validate_knot v) then Err ValueError else
  let mu := Z.min order_u (s_pu s) in
  let mv := Z.min order_v (s_pv s) in
  let* us := find_span (s_nu s) (s_pu s) u (s_ku s) in
  let* vs := find_span (s_nv s) (s_pv s) v (s_kv s) in
  let* du := basis_function_ders us u (s_pu s) (s_ku s) mu in
  let* dv := basis_function_ders vs v (s_pv s) (s_kv s) mv in
  let* arrays := surf_arrays s in
  let* derivs := np_full2 ((mu + 1) * (mv + 1)) 3 (0 : K)%num in
  let* st := for_range 0 (mu + 1) (fun u_row st =>
               for_range 0 (mv + 1) (fun v_row st =>
                 surf_deriv_entry s normalize us vs arrays du dv u_row v_row st) st) (0, derivs) in
  Ok (snd st).

(** ** The surface object as the class manages it. *)

(** base_geometry.py:175-181: attributes set by the constructor and setters.
    [o_nc_u], [o_nc_v] stand for the attributes [_num_ctrlpts_u], [_num_ctrlpts_v]
    which the methods read; [None] there means "no such attribute". *)
Record surf_obj := mkSurfObj {
  o_degree_u : option Z; o_degree_v : option Z;
  o_num_u : option Z; o_num_v : option Z;             (* _num_control_points_u/v *)
  o_nc_u : option Z; o_nc_v : option Z;               (* _num_ctrlpts_u/v *)
  o_ctrl : option (list (list K));
  o_ku : option (list K); o_kv : option (list K);
  o_dim : Z
}.

(** The classes involved and their method resolution orders (the surface class
    read as a class of its own). *)
Inductive class_name := CObject | CAbc | CGeometry | CCurve | CSurface | CBCurve | CBSurface.
Definition class_eqb (a b : class_name) : bool :=
  match a, b with
  | CObject, CObject | CAbc, CAbc | CGeometry, CGeometry | CCurve, CCurve
  | CSurface, CSurface | CBCurve, CBCurve | CBSurface, CBSurface => true
  | _, _ => false
  end.
Definition mro (c : class_name) : list class_name :=
  match c with
  | CObject => [CObject]
  | CAbc => [CAbc; CObject]
  | CGeometry => [CGeometry; CAbc; CObject]
  | CCurve => [CCurve; CGeometry; CAbc; CObject]
  | CSurface => [CSurface; CGeometry; CAbc; CObject]
  | CBCurve => [CBCurve; CCurve; CGeometry; CAbc; CObject]
  | CBSurface => [CBSurface; CSurface; CGeometry; CAbc; CObject]
  end.
(** [super(cls, obj)] with [obj] of class [c]: the class whose attributes are
    found next; TypeError unless [obj] is an instance of [cls]. *)
Fixpoint after (cls : class_name) (l : list class_name) : res class_name :=
  match l with
  | [] => Err TypeError
  | x :: t => if class_eqb x cls then match t with y :: _ => Ok y | [] => Ok CObject end
              else after cls t
  end.
Definition py_super (cls c : class_name) : res class_name := after cls (mro c).

(** The attributes right after base_geometry.py:175-181 (before line 182). *)
Definition surf_fresh (degree_u degree_v : option Z) : surf_obj :=
  mkSurfObj degree_u degree_v None None None None None None None 0.

(** base_geometry.py:174-182 for an object of class [c]; line 182 is
    [super(SplineCurve, self).__init__]; SplineGeometry's constructor
    (lines 18-19) sets the dimension. *)
Definition surface_init (c : class_name) (degree_u degree_v dimension : option Z) : res surf_obj :=
  let o := surf_fresh degree_u degree_v in
  let* next := py_super CCurve c in
  Ok (mkSurfObj degree_u degree_v None None None None None None None
        (match dimension with Some d => d | None => 0 end)).

(** base_geometry.py:188-192, 198-202. *)
Definition set_degree_u (o : surf_obj) (d : Z) : res surf_obj :=
  if d <? 1 then Err ValueError
  else Ok (mkSurfObj (Some d) (o_degree_v o) (o_num_u o) (o_num_v o) (o_nc_u o) (o_nc_v o)
             (o_ctrl o) (o_ku o) (o_kv o) (o_dim o)).
Definition set_degree_v (o : surf_obj) (d : Z) : res surf_obj :=
  if d <? 1 then Err ValueError
  else Ok (mkSurfObj (o_degree_u o) (Some d) (o_num_u o) (o_num_v o) (o_nc_u o) (o_nc_v o)
             (o_ctrl o) (o_ku o) (o_kv o) (o_dim o)).

(** base_geometry.py:208-215, 221-228 ([None + 1] is a TypeError). *)
Definition set_num_u (o : surf_obj) (n : Z) : res surf_obj :=
  match o_degree_u o with
  | None => Err TypeError
  | Some d =>
      if n <? d + 1 then Err ValueError
      else Ok (mkSurfObj (o_degree_u o) (o_degree_v o) (Some n) (o_num_v o) (o_nc_u o) (o_nc_v o)
                 (o_ctrl o) (o_ku o) (o_kv o) (o_dim o))
  end.
Definition set_num_v (o : surf_obj) (n : Z) : res surf_obj :=
  match o_degree_v o with
  | None => Err TypeError
  | Some d =>
      if n <? d + 1 then Err ValueError
      else Ok (mkSurfObj (o_degree_u o) (o_degree_v o) (o_num_u o) (Some n) (o_nc_u o) (o_nc_v o)
                 (o_ctrl o) (o_ku o) (o_kv o) (o_dim o))
  end.

(** base_geometry.py:234-245: the dimension test is inverted. *)
Definition set_surf_ctrl (o : surf_obj) (a : list (list K)) : res surf_obj :=
  match o_degree_u o, o_degree_v o with
  | Some _, Some _ =>
      if negb (negb (width a =? o_dim o)) then Err ValueError
      else Ok (mkSurfObj (o_degree_u o) (o_degree_v o) (o_num_u o) (o_num_v o) (o_nc_u o) (o_nc_v o)
                 (Some a) (o_ku o) (o_kv o) (o_dim o))
  | _, _ => Err ValueError
  end.

(** base_geometry.py:251-263 with bspline.py:321-328: reads the attribute
    [_num_ctrlpts_u], and checks against [len(self._knot_vector_u)]. *)
Definition set_knot_vector_u (o : surf_obj) (kv : arraylike K) : res surf_obj :=
  match o_degree_u o with
  | None => Err ValueError
  | Some p =>
      match o_ctrl o with
      | None => Err ValueError
      | Some _ =>
          match o_nc_u o with
          | None => Err AttributeError
          | Some _ =>
              match o_ku o with
              | None => Err TypeError
              | Some old =>
                  let* ok := check_knot_vector p kv (zlen old) in
                  if ok then
                    Ok (mkSurfObj (o_degree_u o) (o_degree_v o) (o_num_u o) (o_num_v o)
                          (o_nc_u o) (o_nc_v o) (o_ctrl o)
                          (Some (match kv with NdArray l | PyList l => l end)) (o_kv o) (o_dim o))
                  else Ok o
              end
          end
      end
  end.
(** base_geometry.py:269-281. *)
Definition set_knot_vector_v (o : surf_obj) (kv : arraylike K) : res surf_obj :=
  match o_degree_v o with
  | None => Err ValueError
  | Some p =>
      match o_ctrl o with
      | None => Err ValueError
      | Some _ =>
          match o_nc_v o with
          | None => Err AttributeError
          | Some _ =>
              match o_kv o with
              | None => Err TypeError
              | Some old =>
                  let* ok := check_knot_vector p kv (zlen old) in
                  if ok then
                    Ok (mkSurfObj (o_degree_u o) (o_degree_v o) (o_num_u o) (o_num_v o)
                          (o_nc_u o) (o_nc_v o) (o_ctrl o) (o_ku o)
                          (Some (match kv with NdArray l | PyList l => l end)) (o_dim o))
                  else Ok o
              end
          end
      end
  end.

(** bspline.py:182-226 on the object: line 205 reads [_num_ctrlpts_u] first. *)
Definition obj_single_point (o : surf_obj) (u v : K) : res (list K) :=
  if negb (validate_knot u) then Err ValueError else
  if negb (validate_knot v) then Err ValueError else
  match o_nc_u o, o_nc_v o with
  | Some nu, Some nv =>
      match o_degree_u o, o_degree_v o, o_ctrl o, o_ku o, o_kv o with
      | Some pu, Some pv, Some P, Some ku, Some kv =>
          surf_point (mkSurf pu pv nu nv P ku kv) u v
      | _, _, _, _, _ => Err TypeError
      end
  | _, _ => Err AttributeError
  end.

Inductive surf_op :=
| SDegreeU (d : Z) | SDegreeV (d : Z) | SNumU (n : Z) | SNumV (n : Z)
| SCtrl (a : list (list K)) | SKnotU (kv : arraylike K) | SKnotV (kv : arraylike K).
Definition surf_step (o : surf_obj) (op : surf_op) : surf_obj * option exn :=
  let r := match op with
           | SDegreeU d => set_degree_u o d
           | SDegreeV d => set_degree_v o d
           | SNumU n => set_num_u o n
           | SNumV n => set_num_v o n
           | SCtrl a => set_surf_ctrl o a
           | SKnotU kv => set_knot_vector_u o kv
           | SKnotV kv => set_knot_vector_v o kv
           end in
  match r with Ok o' => (o', None) | Err e => (o, Some e) | Diverge => (o, None) end.
Definition surf_run (o : surf_obj) (ops : list surf_op) : surf_obj :=
  fold_left (fun o op => fst (surf_step o op)) ops o.
End Surface.
Arguments surf K : clear implicits.
Arguments surf_obj K : clear implicits.
Arguments surf_op K : clear implicits.
