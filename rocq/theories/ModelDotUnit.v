(** bspline.py:249-319 with the arithmetic of numpy left open, as ModelDot.v and
    ModelDotParam.v, for both values of [normalize].  The norm in the test of row [n]
    is computed at site [n; 3], the norm it is divided by at site [n; 4]. *)
From Verif Require Import Py Num ModelKnots ModelBasis ModelCurve ModelSurface ModelDot ModelDotParam.
Open Scope Z_scope.

Section DotUnit.
Context {K : Num}.
Variable dot : list Z -> list K -> list K -> K.

(** bspline.py:306-317, one entry; state (index, derivs). *)
Definition surf_deriv_entry_unit (s : surf K) (normalize : bool) (us vs : Z) (arrays : list (list K) * list (list K) * list (list K))
  (du dv : list (list K)) (u_row v_row : Z) (st : Z * list (list K)) : res (Z * list (list K)) :=
  let* bu := acol du u_row in
  let* bv := acol dv v_row in
  let* val := surf_contract_dot dot [fst st] s us vs arrays bu bv in
  let val := if normalize && negb (isclose (norm dot [fst st; 3] val) (0 : K)%num) && negb (fst st =? 0)
             then map (fun x => (x / norm dot [fst st; 4] val)%num) val else val in
  let* d := aset_row (snd st) (fst st) val in
  Ok (fst st + 1, d).
(** bspline.py:249-319. *)
Definition surf_derivatives_unit (s : surf K) (u v : K) (order_u order_v : Z) (normalize : bool) : res (list (list K)) :=
  if negb (validate_knot u) then Err ValueError else
  if negb (validate_knot v) then Err ValueError else
  let mu := Z.min order_u (s_pu s) in
  let mv := Z.min order_v (s_pv s) in
  let* us := find_span (s_nu s) (s_pu s) u (s_ku s) in
  let* vs := find_span (s_nv s) (s_pv s) v (s_kv s) in
  let* du := basis_function_ders us u (s_pu s) (s_ku s) mu in
  let* dv := basis_function_ders vs v (s_pv s) (s_kv s) mv in
  let* arrays := surf_arrays s in
  let* derivs := np_full2 ((mu + 1) * (mv + 1)) 3 (0 : K)%num in
  let* st := for_range 0 (mu + 1) (fun u_row st =>
               for_range 0 (mv + 1) (fun v_row st =>
                 surf_deriv_entry_unit s normalize us vs arrays du dv u_row v_row st) st) (0, derivs) in
  Ok (snd st).
End DotUnit.
