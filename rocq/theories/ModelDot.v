(** The methods of BSplineCurve and BSplineSurface with the dot products of [@]
    left open: ModelCurve.v, ModelSurface.v and ModelParam.v add the products from
    left to right, numpy and the library behind it may not.  [dot site a b] is the
    value of the dot product computed at [site]: the coordinate, for a surface also
    the column, for derivatives first the index of the row. *)
From Verif Require Import Py Num ModelKnots ModelBasis ModelCurve ModelSurface ModelParam.
Open Scope Z_scope.

Section Dot.
Context {K : Num}.
Variable dot : list Z -> list K -> list K -> K.

(** [a @ b] for 1-D operands. *)
Definition mm (site : list Z) (a b : list K) : res K :=
  if zlen a =? zlen b then Ok (dot site a b) else Err ValueError.

(** bspline.py:36-44. *)
Definition curve_point_dot (p : Z) (P : list (list K)) (kv : list K) (knot : K) : res (list K) :=
  let* knot_span := find_span (zlen P) p knot kv in
  let* basis_funs := basis_functions knot_span knot p kv in
  let active := slice P (knot_span - p) (knot_span + 1) in
  let* cx := acol active 0 in
  let* x := mm [0] basis_funs cx in
  let* cy := acol active 1 in
  let* y := mm [1] basis_funs cy in
  let* cz := acol active 2 in
  let* z := mm [2] basis_funs cz in
  Ok [x; y; z].
(** bspline.py:19-44. *)
Definition single_point_dot (c : curve_obj K) (knot : K) : res (list K) :=
  if negb (validate_knot knot) then Err ValueError else
  let* f := curve_fields c in
  let '(p, P, kv) := f in curve_point_dot p P kv knot.

(** bspline.py:101-107 with three coordinates, as [curve_deriv_row3]. *)
Definition curve_deriv_row_dot (ders active : list (list K)) (row : Z) (derivs : list (list K)) : res (list (list K)) :=
  let* b := acol ders row in
  let* c0 := acol active 0 in
  let* v0 := mm [row; 0] b c0 in
  let* c1 := acol active 1 in
  let* v1 := mm [row; 1] b c1 in
  let* c2 := acol active 2 in
  let* v2 := mm [row; 2] b c2 in
  aset_row derivs row [v0; v1; v2].
(** bspline.py:68-109 with three coordinates, as [derivatives3]. *)
Definition derivatives_dot (c : curve_obj K) (knot : K) (order : Z) : res (list (list K)) :=
  if negb (validate_knot knot) then Err ValueError else
  if order <=? 1 then Err ValueError else
  let* f := curve_fields c in
  let '(p, P, kv) := f in
  let max_order := Z.min order p in
  let* knot_span := find_span (zlen P) p knot kv in
  let* ders := basis_function_ders knot_span knot p kv max_order in
  let active := slice P (knot_span - p) (knot_span + 1) in
  let* derivs := np_full2 (max_order + 1) 3 (0 : K)%num in
  for_range 0 (zlen derivs) (curve_deriv_row_dot ders active) derivs.

(** [v @ m] and [bu @ m @ bv]. *)
Definition vecmat_dot (site : list Z) (v : list K) (m : list (list K)) : res (list K) :=
  if zlen v =? zlen m then
    mapM (fun j => let* c := acol m j in mm (site ++ [j]) v c) (zrange 0 (width m))
  else Err ValueError.
Definition bilinear_dot (site : list Z) (bu : list K) (m : list (list K)) (bv : list K) : res K :=
  let* t := vecmat_dot site bu m in mm site t bv.
(** bspline.py:217-224 (and 308-312). *)
Definition surf_contract_dot (site : list Z) (s : surf K) (us vs : Z) (arrays : list (list K) * list (list K) * list (list K))
  (bu bv : list K) : res (list K) :=
  let active arr := slice2 arr (us - s_pu s) (us + 1) (vs - s_pv s) (vs + 1) in
  let '(xa, ya, za) := arrays in
  let* x := bilinear_dot (site ++ [0]) bu (active xa) bv in
  let* y := bilinear_dot (site ++ [1]) bu (active ya) bv in
  let* z := bilinear_dot (site ++ [2]) bu (active za) bv in
  Ok [x; y; z].
(** bspline.py:182-226. *)
Definition surf_point_dot (s : surf K) (u v : K) : res (list K) :=
  if negb (validate_knot u) then Err ValueError else
  if negb (validate_knot v) then Err ValueError else
  let* us := find_span (s_nu s) (s_pu s) u (s_ku s) in
  let* vs := find_span (s_nv s) (s_pv s) v (s_kv s) in
  let* bu := basis_functions us u (s_pu s) (s_ku s) in
  let* bv := basis_functions vs v (s_pv s) (s_kv s) in
  let* arrays := surf_arrays s in
  surf_contract_dot [] s us vs arrays bu bv.

(** bspline.py:306-317 with [normalize] False, one entry; state (index, derivs). *)
Definition surf_deriv_entry_dot (s : surf K) (us vs : Z) (arrays : list (list K) * list (list K) * list (list K))
  (du dv : list (list K)) (u_row v_row : Z) (st : Z * list (list K)) : res (Z * list (list K)) :=
  let* bu := acol du u_row in
  let* bv := acol dv v_row in
  let* val := surf_contract_dot [fst st] s us vs arrays bu bv in
  let* d := aset_row (snd st) (fst st) val in
  Ok (fst st + 1, d).
(** bspline.py:249-319 with [normalize] False. *)
Definition surf_derivatives_dot (s : surf K) (u v : K) (order_u order_v : Z) : res (list (list K)) :=
  if negb (validate_knot u) then Err ValueError else
  if negb (validate_knot v) then Err ValueError else
  let mu := Z.min order_u (s_pu s) in
  let mv := Z.min order_v (s_pv s) in
  let* us := find_span (s_nu s) (s_pu s) u (s_ku s) in
  let* vs := find_span (s_nv s) (s_pv s) v (s_kv s) in
  let* du := basis_function_ders us u (s_pu s) (s_ku s) mu in
  let* dv := basis_function_ders vs v (s_pv s) (s_kv s) mv in
  let* arrays := surf_arrays s in
  let* derivs := np_full2 ((mu + 1) * (mv + 1)) 3 (0 : K)%num in
  let* st := for_range 0 (mu + 1) (fun u_row st =>
               for_range 0 (mv + 1) (fun v_row st =>
                 surf_deriv_entry_dot s us vs arrays du dv u_row v_row st) st) (0, derivs) in
  Ok (snd st).
End Dot.
