(** fit/algorithms/parameterize.py with the arithmetic of numpy left open: as
    ModelParam.v, but [dot site a b] is the value of the dot product computed at
    [site], and [solve] is what [np.linalg.inv] of a 2x2 matrix, applied to a vector
    by [np.matmul], amounts to.  [np.linalg.norm] of a 1-D array is the square root of
    the dot product of the array with itself.
    A site is the index of the sample for first guesses, otherwise the round of the
    loop (-1 before it) and the number of the product within the round. *)
From Verif Require Import Py Num ModelKnots ModelBasis ModelCurve ModelSurface ModelParam ModelDot.
Open Scope Z_scope.

Section DotParam.
Context {K : Num}.
Variable dot : list Z -> list K -> list K -> K.
Variable solve : K -> K -> K -> K -> K -> K -> res (K * K).

Definition norm (site : list Z) (a : list K) : K := nsqrt (dot site a a).

(** parameterize.py:34-40. *)
Definition guess_step_dot (c : curve_beh K) (point eval_u : list K) (u : Z) (st : K * K) : res (K * K) :=
  let* e := aget eval_u u in
  let* q := cb_point c e in
  let* r := np_sub point q in
  let normr := norm [u] r in
  Ok (if (normr <? fst st)%num then (normr, e) else st).
(** parameterize.py:12-42. *)
Definition initial_guess_curve_dot (c : curve_beh K) (point : list K) : res K :=
  let num_u_spans := 2 * cb_count c in
  let eval_u := samples num_u_spans in
  let* u0 := aget eval_u 0 in
  let* st := for_range 0 num_u_spans (guess_step_dot c point eval_u) (lit_1e6, u0) in
  Ok (snd st).

(** parameterize.py:79 / 113. *)
Definition curve_dist_dot (j : Z) (c : curve_beh K) (point : list K) (u : K) : res K :=
  let* q := cb_point c u in
  let* r := np_sub q point in
  Ok (norm [j; 0] r).
(** parameterize.py:84-85 / 118-119. *)
Definition curve_cos_dot (j : Z) (pt d1 point : list K) : res K :=
  let* r := np_sub pt point in
  let* num := mm dot [j; 1] d1 r in
  Ok (norm [j; 2] [num] / (norm [j; 3] d1 * norm [j; 4] r))%num.
(** parameterize.py:93-102. *)
Definition curve_newton_dot (j : Z) (ui : K) (pt d1 d2 point : list K) : res K :=
  let* r := np_sub pt point in
  let* num := mm dot [j; 5] d1 r in
  let* t := mm dot [j; 6] d2 r in
  let denom := (t + norm [j; 7] d1 * norm [j; 7] d1)%num in
  let uip1 := (ui - num / denom)%num in
  Ok (if (uip1 <? 0)%num then 0%num else if (1 <? uip1)%num then 1%num else uip1).
(** parameterize.py:89-135. *)
Fixpoint curve_loop_dot (fuel : nat) (c : curve_beh K) (point : list K) (eps1 eps2 : K) (max_iter j : Z)
  (ui : K) (pt d1 d2 : list K) : res K :=
  match fuel with
  | O => Diverge
  | S f =>
      let* uip1 := curve_newton_dot j ui pt d1 d2 point in
      let cond4 := norm [j; 8] (map (fun i => (i * (uip1 - ui))%num) d1) in
      if (cond4 <=? eps1)%num then Ok ui else
      let* rows := curve_rows c uip1 in
      let '(pt', d1', d2') := rows in
      let* cond1 := curve_dist_dot j c point uip1 in
      if (cond1 <=? eps1)%num then Ok ui else
      let* cond2 := curve_cos_dot j pt' d1' point in
      if (cond2 <=? eps2)%num then Ok ui else
      if max_iter <? j then Ok uip1 else
      curve_loop_dot f c point eps1 eps2 max_iter (j + 1) uip1 pt' d1' d2'
  end.
(** parameterize.py:45-135. *)
Definition curve_inversion_fuel_dot (fuel : nat) (c : curve_beh K) (point : list K) (eps1 eps2 : K) (max_iter : Z) : res K :=
  let* ui := initial_guess_curve_dot c point in
  let* rows := curve_rows c ui in
  let '(pt, d1, d2) := rows in
  let* cond1 := curve_dist_dot (-1) c point ui in
  if (cond1 <=? eps1)%num then Ok ui else
  let* cond2 := curve_cos_dot (-1) pt d1 point in
  if (cond2 <=? eps2)%num then Ok ui else
  curve_loop_dot fuel c point eps1 eps2 max_iter 0 ui pt d1 d2.
Definition curve_inversion_dot (c : curve_beh K) (point : list K) (eps1 eps2 : K) (max_iter : Z) : res K :=
  curve_inversion_fuel_dot (S (Z.to_nat (max_iter + 2))) c point eps1 eps2 max_iter.
(** parameterize.py:138-164. *)
Definition parameterize_curve_dot (c : curve_beh K) (data : data_array K) : res (list (list K)) :=
  let* knot_vals := mapM (fun point => curve_inversion_dot c point lit_1em5 lit_1em5 100) (dt_rows data) in
  let param_data := map (fun t => fst t ++ [snd t]) (combine (dt_rows data) knot_vals) in
  sort_view 4 [3%nat; 0%nat; 1%nat; 2%nat] (dt_cols data + 1) param_data.

(** parameterize.py:194-200. *)
Definition guess_step2_dot (s : surf_beh K) (point eval_u eval_v : list K) (u v : Z) (st : K * K * K) : res (K * K * K) :=
  let* eu := aget eval_u u in
  let* ev := aget eval_v v in
  let* q := sb_point s eu ev in
  let* r := np_sub point q in
  let normr := norm [u; v] r in
  Ok (if (normr <? fst (fst st))%num then (normr, eu, ev) else st).
(** parameterize.py:167-202. *)
Definition initial_guess_surf_dot (s : surf_beh K) (point : list K) : res (K * K) :=
  let num_u_spans := 2 * sb_nu s in
  let num_v_spans := 2 * sb_nv s in
  let eval_u := samples num_u_spans in
  let eval_v := samples num_v_spans in
  let* u0 := aget eval_u 0 in
  let* v0 := aget eval_v 0 in
  let* st := for_range 0 num_u_spans (fun u st =>
               for_range 0 num_v_spans (fun v st => guess_step2_dot s point eval_u eval_v u v st) st) (lit_1e6, u0, v0) in
  Ok (snd (fst st), snd st).
(** parameterize.py:279 as in ModelParam.v: LU with partial pivoting, then two
    products each, added from left to right. *)
Definition solve_lu (a b c d k0 k1 : K) : res (K * K) :=
  let* i := inv2 a b c d in
  let '(i00, i01, i10, i11) := i in
  Ok (i00 * k0 + i01 * k1, i10 * k0 + i11 * k1)%num.
(** parameterize.py:249-252 / 321-329; [k] is 0 for u, 1 for v. *)
Definition surf_cos_dot (n k : Z) (d r : list K) : res K :=
  let* num := mm dot [n; 1; k] d r in Ok (norm [n; 2; k] [num] / (norm [n; 3; k] d * norm [n; 4; k] r))%num.
(** parameterize.py:261-296. *)
Definition surf_newton_dot (n : Z) (s : surf_beh K) (point : list K) (ui vi : K) (d : surf_rows K) : res (K * K) :=
  let* r := surf_res s point ui vi in
  let* f := mm dot [n; 5] r (sr_u d) in
  let* g := mm dot [n; 6] r (sr_v d) in
  let* ruu := mm dot [n; 7] r (sr_uu d) in
  let* uv := mm dot [n; 8] (sr_u d) (sr_v d) in
  let* ruv := mm dot [n; 9] r (sr_uv d) in
  let* rvv := mm dot [n; 10] r (sr_vv d) in
  let fu := (norm [n; 11] (sr_u d) * norm [n; 11] (sr_u d) + ruu)%num in
  let fv := (uv + ruv)%num in
  let gu := (uv + ruv)%num in
  let gv := (norm [n; 12] (sr_v d) * norm [n; 12] (sr_v d) + rvv)%num in
  let k0 := (nopp 1 * f)%num in
  let k1 := (nopp 1 * g)%num in
  let* delta := solve fu fv gu gv k0 k1 in
  Ok (clamp01 (fst delta + ui)%num, clamp01 (snd delta + vi)%num).
(** parameterize.py:257-340. *)
Fixpoint surf_loop_dot (fuel : nat) (s : surf_beh K) (point : list K) (eps1 eps2 : K) (max_iter n : Z)
  (ui vi : K) (d : surf_rows K) : res (K * K) :=
  match fuel with
  | O => Diverge
  | S k =>
      let* next := surf_newton_dot n s point ui vi d in
      let '(uip1, vip1) := next in
      let* step := np_bin nadd (vscale (uip1 - ui)%num (sr_u d)) (vscale (vip1 - vi)%num (sr_v d)) in
      if (norm [n; 13] step <=? eps1)%num then Ok (uip1, vip1) else
      let* d' := get_surf_rows s ui vi in
      let* r := surf_res s point uip1 vip1 in
      if (norm [n; 14] r <=? eps1)%num then Ok (uip1, vip1) else
      let* cond2a := surf_cos_dot n 0 (sr_u d') r in
      let* cond2b := surf_cos_dot n 1 (sr_v d') r in
      if ((cond2a <=? eps2) && (cond2b <=? eps2))%num then Ok (uip1, vip1) else
      if max_iter <=? n then Ok (uip1, vip1) else
      surf_loop_dot k s point eps1 eps2 max_iter (n + 1) uip1 vip1 d'
  end.
(** parameterize.py:205-340. *)
Definition surface_inversion_fuel_dot (fuel : nat) (s : surf_beh K) (point : list K) (eps1 eps2 : K) (max_iter : Z)
  : res (K * K) :=
  let* guess := initial_guess_surf_dot s point in
  let '(ui, vi) := guess in
  let* d := get_surf_rows s ui vi in
  let* r := surf_res s point ui vi in
  if (norm [-1; 14] r <=? eps1)%num then Ok (ui, vi) else
  let* cond2a := surf_cos_dot (-1) 0 (sr_u d) r in
  let* cond2b := surf_cos_dot (-1) 1 (sr_v d) r in
  if ((cond2a <=? eps2) && (cond2b <=? eps2))%num then Ok (ui, vi) else
  surf_loop_dot fuel s point eps1 eps2 max_iter 0 ui vi d.
Definition surface_inversion_dot (s : surf_beh K) (point : list K) (eps1 eps2 : K) (max_iter : Z) : res (K * K) :=
  surface_inversion_fuel_dot (S (Z.to_nat (max_iter + 1))) s point eps1 eps2 max_iter.
(** parameterize.py:343-369. *)
Definition parameterize_surface_dot (s : surf_beh K) (data : data_array K) : res (list (list K)) :=
  let* knot_vals := mapM (fun point => surface_inversion_dot s point lit_1em5 lit_1em5 100) (dt_rows data) in
  let param_data := map (fun t => fst t ++ [fst (snd t); snd (snd t)]) (combine (dt_rows data) knot_vals) in
  sort_view 5 [3%nat; 4%nat; 0%nat; 1%nat; 2%nat] (dt_cols data + 2) param_data.
End DotParam.

(** Objects of the repository's classes as in ModelParam.v ([beh_of_curve3],
    [beh_of_surf]); the dot products may depend on the parameter evaluated at. *)
Definition beh_of_curve_dot {K : Num} (pd dd : K -> list Z -> list K -> list K -> K) (c : curve_obj K) : curve_beh K :=
  mkBeh (match c_ctrl c with Some P => zlen P | None => 0 end) (fun u => single_point_dot (pd u) c u) (fun u => derivatives_dot (dd u) c u 2).
Definition beh_of_surf_dot {K : Num} (pd dd : K -> K -> list Z -> list K -> list K -> K) (s : surf K) : surf_beh K :=
  mkSBeh (s_nu s) (s_nv s) (fun u v => surf_point_dot (pd u v) s u v) (fun u v => surf_derivatives_dot (dd u v) s u v 2 2).
