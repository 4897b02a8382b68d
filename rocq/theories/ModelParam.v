(** Model of fit/algorithms/parameterize.py.

    The functions take a curve or surface object and call nothing but
    [len(curve.control_points)] (resp. [num_ctrlpts_u], [num_ctrlpts_v]),
    [single_point] and [derivatives(..., normalize=False)] on it: the model
    takes these as the object ([curve_beh], [surf_beh]).  [beh_of_curve] and
    [beh_of_surf] are the objects of the repository's classes;
    [beh_of_curve3] is a curve whose [derivatives] fills all three coordinates.

    Simplifications: data points are 1-D arrays, data sets 2-D arrays given by
    rows; sums are taken left to right (Num.v); [np.float] (removed in numpy
    1.24) is taken to exist.  Sorting: insertion sort in place of numpy's
    introsort, which can only differ in the order of records all of whose
    fields compare equal. *)
From Verif Require Import Py Num ModelKnots ModelBasis ModelCurve ModelSurface.
Open Scope Z_scope.

Section Param.
Context {K : Num}.

(** [a - b], [a + b] on 1-D arrays: equal lengths, or one of length 1. *)
Definition np_bin (f : K -> K -> K) (a b : list K) : res (list K) :=
  if zlen a =? zlen b then Ok (vmap2 f a b)
  else match a, b with
       | [x], _ => Ok (map (f x) b)
       | _, [y] => Ok (map (fun x => f x y) a)
       | _, _ => Err ValueError
       end.
Definition np_sub := np_bin nsub.

(** [np.linalg.norm] of a scalar. *)
Definition snorm (x : K) : K := vnorm [x].

Record curve_beh := mkBeh {
  cb_count : Z;                                   (* len(curve.control_points) *)
  cb_point : K -> res (list K);                   (* single_point(u) *)
  cb_ders : K -> res (list (list K))              (* derivatives(u, 2, normalize=False) *)
}.

(** [1 / (N - 1) * np.array(list(range(0, N)))]; N is even, so never 1. *)
Definition samples (N : Z) : list K :=
  let h := (1 / ofZ (N - 1))%num in map (fun i => (h * ofZ i)%num) (zrange 0 N).

(** parameterize.py:34-40, loop body; state (min_val, u0). *)
Definition guess_step (c : curve_beh) (point eval_u : list K) (u : Z) (st : K * K) : res (K * K) :=
  let* e := aget eval_u u in
  let* q := cb_point c e in
  let* r := np_sub point q in
  let normr := vnorm r in
  Ok (if (normr <? fst st)%num then (normr, e) else st).

(** parameterize.py:12-42. *)
Definition initial_guess_curve (c : curve_beh) (point : list K) : res K :=
  let num_u_spans := 2 * cb_count c in
  let eval_u := samples num_u_spans in
  let* u0 := aget eval_u 0 in
  let* st := for_range 0 num_u_spans (guess_step c point eval_u) (lit_1e6, u0) in
  Ok (snd st).

(** parameterize.py:72-76 / 107-110: the three derivative rows at [u]. *)
Definition curve_rows (c : curve_beh) (u : K) : res (list K * list K * list K) :=
  let* ders := cb_ders c u in
  let* r0 := aget ders 0 in
  let* r1 := aget ders 1 in
  let* r2 := aget ders 2 in
  Ok (r0, r1, r2).

(** parameterize.py:79 / 113: distance of the curve at [u] from the point. *)
Definition curve_dist (c : curve_beh) (point : list K) (u : K) : res K :=
  let* q := cb_point c u in
  let* r := np_sub q point in
  Ok (vnorm r).

(** parameterize.py:84-85 / 118-119: cosine of the angle between tangent and residual. *)
Definition curve_cos (pt d1 point : list K) : res K :=
  let* r := np_sub pt point in
  let* num := matmul11 d1 r in
  Ok (snorm num / (vnorm d1 * vnorm r))%num.

(** parameterize.py:93-102: the Newton iterate, kept in [0,1]. *)
Definition curve_newton (ui : K) (pt d1 d2 point : list K) : res K :=
  let* r := np_sub pt point in
  let* num := matmul11 d1 r in
  let* t := matmul11 d2 r in
  let denom := (t + vnorm d1 * vnorm d1)%num in
  let uip1 := (ui - num / denom)%num in
  Ok (if (uip1 <? 0)%num then 0%num else if (1 <? uip1)%num then 1%num else uip1).

(** parameterize.py:89-135: the [while True] loop.  [fuel] bounds the number of
    rounds; theorem C45_curve_steps shows which fuel is enough. *)
Fixpoint curve_loop (fuel : nat) (c : curve_beh) (point : list K) (eps1 eps2 : K) (max_iter j : Z)
  (ui : K) (pt d1 d2 : list K) : res K :=
  match fuel with
  | O => Diverge
  | S f =>
      let* uip1 := curve_newton ui pt d1 d2 point in
      let cond4 := vnorm (map (fun i => (i * (uip1 - ui))%num) d1) in
      if (cond4 <=? eps1)%num then Ok ui else
      let* rows := curve_rows c uip1 in
      let '(pt', d1', d2') := rows in
      let* cond1 := curve_dist c point uip1 in
      if (cond1 <=? eps1)%num then Ok ui else
      let* cond2 := curve_cos pt' d1' point in
      if (cond2 <=? eps2)%num then Ok ui else
      if max_iter <? j then Ok uip1 else
      curve_loop f c point eps1 eps2 max_iter (j + 1) uip1 pt' d1' d2'
  end.

(** parameterize.py:45-135 with a given bound on the rounds of the loop. *)
Definition curve_inversion_fuel (fuel : nat) (c : curve_beh) (point : list K) (eps1 eps2 : K) (max_iter : Z) : res K :=
  let* ui := initial_guess_curve c point in
  let* rows := curve_rows c ui in
  let '(pt, d1, d2) := rows in
  let* cond1 := curve_dist c point ui in
  if (cond1 <=? eps1)%num then Ok ui else
  let* cond2 := curve_cos pt d1 point in
  if (cond2 <=? eps2)%num then Ok ui else
  curve_loop fuel c point eps1 eps2 max_iter 0 ui pt d1 d2.
Definition curve_inversion (c : curve_beh) (point : list K) (eps1 eps2 : K) (max_iter : Z) : res K :=
  curve_inversion_fuel (S (Z.to_nat (max_iter + 2))) c point eps1 eps2 max_iter.

(** ** Sorting of records *)

(** Comparison of floats in numpy's sort: NaN is last. *)
Definition sort_lt (a b : K) : bool := (a <? b)%num || ((a =? a)%num && negb (b =? b)%num).
(** Lexicographic [not (b < a)] on the fields with the given indices. *)
Fixpoint rec_le (order : list nat) (a b : list K) : bool :=
  match order with
  | [] => true
  | i :: t =>
      let x := nth i a 0%num in let y := nth i b 0%num in
      if sort_lt x y then true else if sort_lt y x then false else rec_le t a b
  end.
Fixpoint rec_insert (order : list nat) (r : list K) (l : list (list K)) : list (list K) :=
  match l with
  | [] => [r]
  | x :: t => if rec_le order r x then r :: l else x :: rec_insert order r t
  end.
Fixpoint rec_sort (order : list nat) (l : list (list K)) : list (list K) :=
  match l with
  | [] => []
  | x :: t => rec_insert order x (rec_sort order t)
  end.
(** [np.sort(m.view('float64,...' (w fields)), order=..., axis=0).view(np.float)]
    for an array with [cols] columns: the columns are grouped in records of [w],
    each column of records is sorted by itself; [order] lists the fields in the
    order in which they are compared (those named, then the remaining ones). *)
Definition sort_view (w : Z) (order : list nat) (cols : Z) (m : list (list K)) : res (list (list K)) :=
  if negb (cols mod w =? 0) then Err ValueError else
  let blocks := map (fun b => rec_sort order (map (fun r => slice r (b * w) (b * w + w)) m)) (zrange 0 (cols / w)) in
  Ok (map (fun i => flat_map (fun b => nth i b []) blocks) (seq 0 (length m))).

(** The data array: number of columns and rows. *)
Record data_array := mkData { dt_cols : Z; dt_rows : list (list K) }.

(** parameterize.py:138-164; default tolerances of [curve_inversion]. *)
Definition parameterize_curve (c : curve_beh) (data : data_array) : res (list (list K)) :=
  let* knot_vals := mapM (fun point => curve_inversion c point lit_1em5 lit_1em5 100) (dt_rows data) in
  let param_data := map (fun t => fst t ++ [snd t]) (combine (dt_rows data) knot_vals) in
  sort_view 4 [3%nat; 0%nat; 1%nat; 2%nat] (dt_cols data + 1) param_data.

(** ** Surfaces *)
Record surf_beh := mkSBeh {
  sb_nu : Z; sb_nv : Z;                           (* surface.num_ctrlpts_u, _v *)
  sb_point : K -> K -> res (list K);              (* single_point(u, v) *)
  sb_ders : K -> K -> res (list (list K))         (* derivatives(u, v, 2, 2, normalize=False) *)
}.

(** parameterize.py:194-200, loop body; state (min_val, u0, v0). *)
Definition guess_step2 (s : surf_beh) (point eval_u eval_v : list K) (u v : Z) (st : K * K * K) : res (K * K * K) :=
  let* eu := aget eval_u u in
  let* ev := aget eval_v v in
  let* q := sb_point s eu ev in
  let* r := np_sub point q in
  let normr := vnorm r in
  Ok (if (normr <? fst (fst st))%num then (normr, eu, ev) else st).

(** parameterize.py:167-202. *)
Definition initial_guess_surf (s : surf_beh) (point : list K) : res (K * K) :=
  let num_u_spans := 2 * sb_nu s in
  let num_v_spans := 2 * sb_nv s in
  let eval_u := samples num_u_spans in
  let eval_v := samples num_v_spans in
  let* u0 := aget eval_u 0 in
  let* v0 := aget eval_v 0 in
  let* st := for_range 0 num_u_spans (fun u st =>
               for_range 0 num_v_spans (fun v st => guess_step2 s point eval_u eval_v u v st) st) (lit_1e6, u0, v0) in
  Ok (snd (fst st), snd st).

(** parameterize.py:235-241 / 308-314: rows used of the derivative array. *)
Record surf_rows := mkRows { sr_u : list K; sr_v : list K; sr_uu : list K; sr_vv : list K; sr_uv : list K }.
Definition get_surf_rows (s : surf_beh) (u v : K) : res surf_rows :=
  let* ders := sb_ders s u v in
  let* du := aget ders 3 in
  let* dv := aget ders 1 in
  let* duu := aget ders 6 in
  let* dvv := aget ders 2 in
  let* duv := aget ders 4 in
  Ok (mkRows du dv duu dvv duv).

(** Residual [surface.single_point(u, v) - point]. *)
Definition surf_res (s : surf_beh) (point : list K) (u v : K) : res (list K) :=
  let* q := sb_point s u v in np_sub q point.

(** parameterize.py:249-252 / 321-329. *)
Definition surf_cos (d r : list K) : res K :=
  let* num := matmul11 d r in Ok (snorm num / (vnorm d * vnorm r))%num.

(** [np.linalg.inv] of [[a, b], [c, d]]: LU with partial pivoting (LAPACK gesv)
    applied to the identity; an exactly zero pivot raises. *)
Definition inv2 (a b c d : K) : res (K * K * K * K) :=
  let swap := (nabs a <? nabs c)%num in
  let '(p, q, r, s) := if swap then (c, d, a, b) else (a, b, c, d) in
  if (p =? 0)%num then Err LinAlgError else
  let l := (r / p)%num in
  let t := (s - l * q)%num in
  if (t =? 0)%num then Err LinAlgError else
  let solve (y1 y2 : K) := let x2 := ((y2 - l * y1) / t)%num in ((y1 - q * x2) / p, x2)%num in
  let '(x1, x2) := if swap then solve 0%num 1%num else solve 1%num 0%num in
  let '(y1, y2) := if swap then solve 1%num 0%num else solve 0%num 1%num in
  Ok (x1, y1, x2, y2).

(** parameterize.py:283-296: [delta + w] kept in [0,1]. *)
Definition clamp01 (x : K) : K :=
  if (x <? 0)%num then 0%num else if (1 <? x)%num then 1%num else x.

(** parameterize.py:261-296: the next iterate. *)
Definition surf_newton (s : surf_beh) (point : list K) (ui vi : K) (d : surf_rows) : res (K * K) :=
  let* r := surf_res s point ui vi in
  let* f := matmul11 r (sr_u d) in
  let* g := matmul11 r (sr_v d) in
  let* ruu := matmul11 r (sr_uu d) in
  let* uv := matmul11 (sr_u d) (sr_v d) in
  let* ruv := matmul11 r (sr_uv d) in
  let* rvv := matmul11 r (sr_vv d) in
  let fu := (vnorm (sr_u d) * vnorm (sr_u d) + ruu)%num in
  let fv := (uv + ruv)%num in
  let gu := (uv + ruv)%num in
  let gv := (vnorm (sr_v d) * vnorm (sr_v d) + rvv)%num in
  let k0 := (nopp 1 * f)%num in
  let k1 := (nopp 1 * g)%num in
  let* i := inv2 fu fv gu gv in
  let '(i00, i01, i10, i11) := i in
  let delta0 := (i00 * k0 + i01 * k1)%num in
  let delta1 := (i10 * k0 + i11 * k1)%num in
  Ok (clamp01 (delta0 + ui)%num, clamp01 (delta1 + vi)%num).

(** parameterize.py:257-340: the [while True] loop; [fuel] as in [curve_loop]. *)
Fixpoint surf_loop (fuel : nat) (s : surf_beh) (point : list K) (eps1 eps2 : K) (max_iter n : Z)
  (ui vi : K) (d : surf_rows) : res (K * K) :=
  match fuel with
  | O => Diverge
  | S k =>
      let* next := surf_newton s point ui vi d in
      let '(uip1, vip1) := next in
      let* step := np_bin nadd (vscale (uip1 - ui)%num (sr_u d)) (vscale (vip1 - vi)%num (sr_v d)) in
      if (vnorm step <=? eps1)%num then Ok (uip1, vip1) else
      let* d' := get_surf_rows s ui vi in
      let* r := surf_res s point uip1 vip1 in
      if (vnorm r <=? eps1)%num then Ok (uip1, vip1) else
      let* cond2a := surf_cos (sr_u d') r in
      let* cond2b := surf_cos (sr_v d') r in
      if ((cond2a <=? eps2) && (cond2b <=? eps2))%num then Ok (uip1, vip1) else
      if max_iter <=? n then Ok (uip1, vip1) else
      surf_loop k s point eps1 eps2 max_iter (n + 1) uip1 vip1 d'
  end.

(** parameterize.py:205-340. *)
Definition surface_inversion_fuel (fuel : nat) (s : surf_beh) (point : list K) (eps1 eps2 : K) (max_iter : Z)
  : res (K * K) :=
  let* guess := initial_guess_surf s point in
  let '(ui, vi) := guess in
  let* d := get_surf_rows s ui vi in
  let* r := surf_res s point ui vi in
  if (vnorm r <=? eps1)%num then Ok (ui, vi) else
  let* cond2a := surf_cos (sr_u d) r in
  let* cond2b := surf_cos (sr_v d) r in
  if ((cond2a <=? eps2) && (cond2b <=? eps2))%num then Ok (ui, vi) else
  surf_loop fuel s point eps1 eps2 max_iter 0 ui vi d.
Definition surface_inversion (s : surf_beh) (point : list K) (eps1 eps2 : K) (max_iter : Z) : res (K * K) :=
  surface_inversion_fuel (S (Z.to_nat (max_iter + 1))) s point eps1 eps2 max_iter.

(** parameterize.py:343-369. *)
Definition parameterize_surface (s : surf_beh) (data : data_array) : res (list (list K)) :=
  let* knot_vals := mapM (fun point => surface_inversion s point lit_1em5 lit_1em5 100) (dt_rows data) in
  let param_data := map (fun t => fst t ++ [fst (snd t); snd (snd t)]) (combine (dt_rows data) knot_vals) in
  sort_view 5 [3%nat; 4%nat; 0%nat; 1%nat; 2%nat] (dt_cols data + 2) param_data.

(** ** Objects of the repository's classes *)
(** ModelCurve.v. *)
Definition beh_of_curve (c : curve_obj K) : curve_beh :=
  mkBeh (match c_ctrl c with Some P => zlen P | None => 0 end) (single_point c) (fun u => derivatives c u 2 false).
(** A curve whose [derivatives] is the method bspline.py:68-109 with lines
    103-105 filling all three coordinates (they fill two, see C34). *)
Definition curve_deriv_row3 (ders active : list (list K)) (row : Z) (derivs : list (list K)) : res (list (list K)) :=
  let* b := acol ders row in
  let* c0 := acol active 0 in
  let* v0 := matmul11 b c0 in
  let* c1 := acol active 1 in
  let* v1 := matmul11 b c1 in
  let* c2 := acol active 2 in
  let* v2 := matmul11 b c2 in
  aset_row derivs row [v0; v1; v2].
Definition derivatives3 (c : curve_obj K) (knot : K) (order : Z) : res (list (list K)) :=
  if negb (validate_knot knot) then Err ValueError else
  if order <=? 1 then Err ValueError else
  let* f := curve_fields c in
  let '(p, P, kv) := f in
  let max_order := Z.min order p in
  let* knot_span := find_span (zlen P) p knot kv in
  let* ders := basis_function_ders knot_span knot p kv max_order in
  let active := slice P (knot_span - p) (knot_span + 1) in
  let* derivs := np_full2 (max_order + 1) 3 (0 : K)%num in
  for_range 0 (zlen derivs) (curve_deriv_row3 ders active) derivs.
Definition beh_of_curve3 (c : curve_obj K) : curve_beh :=
  mkBeh (match c_ctrl c with Some P => zlen P | None => 0 end) (single_point c) (fun u => derivatives3 c u 2).
(** ModelSurface.v. *)
Definition beh_of_surf (s : surf K) : surf_beh :=
  mkSBeh (s_nu s) (s_nv s) (surf_point s) (fun u v => surf_derivatives s u v 2 2 false).
End Param.
Arguments curve_beh K : clear implicits.
Arguments surf_beh K : clear implicits.
Arguments surf_rows K : clear implicits.
Arguments data_array K : clear implicits.
