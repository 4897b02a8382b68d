(** fit/algorithms/fitting.py with the arithmetic of numpy left open: as ModelFit.v,
    but projections are computed as in ModelDotParam.v, [sum] is [np.sum] and [prod]
    the dot products of [np.matmul].  Every operation has a site: the number of the
    call of parameterize_* or single_fit_*, then the operation within the call, so
    that no two have to be computed in the same way.  [beh] is what the projections of
    a call see of a curve. *)
From Verif Require Import Py Num ModelKnots ModelBasis ModelCurve ModelSurface ModelInit ModelParam ModelFit ModelDot ModelDotParam.
Open Scope Z_scope.

Section DotFit.
Context {K : Num}.
Variable dot : list Z -> list K -> list K -> K.
Variable solve : K -> K -> K -> K -> K -> K -> res (K * K).
Variable sum : list Z -> list K -> K.
Variable prod : list Z -> list K -> list K -> K.

(** [np.matmul(m.T, m)] for a matrix with [n] columns. *)
Definition gram_dot (call n : Z) (m : list (list K)) : res (list (list K)) :=
  let* cols := mapM (acol m) (zrange 0 n) in
  Ok (map (fun ia => map (fun jb => prod [call; fst ia; fst jb] (snd ia) (snd jb)) (combine (zrange 0 n) cols))
          (combine (zrange 0 n) cols)).
(** fitting.py:106-114 / 189-198. *)
Definition check_unity_dot (call : Z) (sv : solver K) (n : Z) (n_mat : list (list K)) (rows : Z) : res unit :=
  let unity := map (fun ir => sum [call; fst ir] (snd ir)) (combine (zrange 0 (zlen n_mat)) n_mat) in
  let total := sum [call] unity in
  if negb (isclose total (ofZ rows)) then Err ValueError else
  let* a := gram_dot call n n_mat in
  let* _ := sv_cond sv a in Ok tt.
(** fitting.py:73-141. *)
Definition single_fit_curve_dot (call : Z) (set_ctrl : curve_obj K -> list (list K) -> res (curve_obj K)) (sv : solver K)
  (c : curve_obj K) (rows : list (list K)) : res (curve_obj K) :=
  let* eval_u := acol rows (-1) in
  let* f := curve_fields c in
  let '(p, P, kv) := f in
  let* n_mat := curve_matrix p P kv eval_u (zlen rows) in
  let* _ := check_unity_dot call sv (zlen P) n_mat (zlen rows) in
  let* fixed := curve_mask (zlen P) in
  let* new_control_point := fit_coordinates sv n_mat rows P fixed in
  set_ctrl c new_control_point.
(** fitting.py:144-230. *)
Definition single_fit_surface_dot (call : Z) (sv : solver K) (s : surf K) (rows : list (list K)) : res (surf K) :=
  let* eval_u := acol rows 3 in
  let* eval_v := acol rows 4 in
  let* n_mat := surf_matrix s eval_u eval_v (zlen rows) in
  let* _ := check_unity_dot call sv (zlen (s_ctrl s)) n_mat (zlen rows) in
  let* fixed := surf_mask (zlen (s_ctrl s)) (s_nu s) (s_nv s) in
  let* new_control_point := fit_coordinates sv n_mat rows (s_ctrl s) fixed in
  Ok (mkSurf (s_pu s) (s_pv s) (s_nu s) (s_nv s) new_control_point (s_ku s) (s_kv s)).

Variable beh : Z -> curve_obj K -> curve_beh K.
Definition project (call : Z) (c : curve_obj K) (data : data_array K) : res (list (list K)) :=
  parameterize_curve_dot (fun site => dot (call :: site)) (beh call c) data.
(** fitting.py:299-332; calls are numbered by rounds. *)
Fixpoint insertion_loop_dot (fuel : nat) (call : Z) (cl : curve_class K) (sv : solver K) (data : data_array K) (num_pts : Z)
  (temp : curve_obj K) : res (curve_obj K) :=
  match fuel with
  | O => Diverge
  | S k =>
      let* param_data := project call temp data in
      let* temp := single_fit_curve_dot call (cl_set_ctrl cl) sv temp param_data in
      match c_ctrl temp with
      | None => Err TypeError
      | Some P =>
          if num_pts <=? zlen P then Ok temp else
          let* f := curve_fields temp in
          let '(p, _, kv) := f in
          let* knots := span_midpoints p kv in
          let* temp := for_range 0 (zlen knots) (fun i t =>
            let* u := aget knots i in cl_insert cl t u) temp in
          insertion_loop_dot k (call + 1) cl sv data num_pts temp
      end
  end.
(** fitting.py:275-334. *)
Definition fit_curve_knot_insertion_fuel_dot (fuel : nat) (cl : curve_class K) (sv : solver K) (c : curve_obj K)
  (data : data_array K) (num_pts : Z) : res (curve_obj K) :=
  let* temp := copy_curve cl c in
  insertion_loop_dot fuel 0 cl sv data num_pts temp.
Definition fit_curve_knot_insertion_dot (cl : curve_class K) (sv : solver K) (c : curve_obj K) (data : data_array K)
  (num_pts : Z) : res (curve_obj K) :=
  fit_curve_knot_insertion_fuel_dot (S (Z.to_nat num_pts)) cl sv c data num_pts.
(** fitting.py:233-272; the calls after the adaptive fit are numbered -1 and -2. *)
Definition fit_curve_fixed_ctrlpts_dot (cl : curve_class K) (sv : solver K) (c : curve_obj K) (data : data_array K)
  : res (curve_obj K) :=
  match c_ctrl c with
  | None => Err TypeError
  | Some P =>
      let* start := aget P 0 in
      let* stop := aget P (-1) in
      match c_degree c with
      | None => Err TypeError
      | Some p =>
          let* init := initialize_curve_with (cl_blank cl) (cl_set_ctrl cl) start stop p (p + 1) in
          match c_ctrl init with
          | None => Err TypeError
          | Some P0 =>
              let* fit := fit_curve_knot_insertion_dot cl sv init data (zlen P0) in
              let* param_data := project (-1) fit data in
              let* fixed := copy_curve cl c in
              let* fixed := single_fit_curve_dot (-1) (cl_set_ctrl cl) sv fixed param_data in
              let* param_data := project (-2) fixed data in
              single_fit_curve_dot (-2) (cl_set_ctrl cl) sv fixed param_data
          end
      end
  end.
(** fitting.py:337-389; [sbeh] is what the projections see of the surface. *)
Definition fit_surface_dot (sbeh : surf K -> surf_beh K) (sv : solver K) (s : surf K) (data : data_array K) (top bottom : option (data_array K))
  : res (surf K) :=
  let* param_data := parameterize_surface_dot dot solve (sbeh s) data in
  match top with
  | None => Err TypeError
  | Some top =>
      match bottom with
      | None => Err TypeError
      | Some bottom =>
          let* _ := vstack (dt_cols data + 2, param_data)
                      [append_column top (1 : K)%num; append_column bottom (0 : K)%num] in
          let* ordered := sort_view 5 [3%nat; 4%nat; 0%nat; 1%nat; 2%nat] (dt_cols data + 2) param_data in
          single_fit_surface_dot 0 sv s ordered
      end
  end.
End DotFit.
