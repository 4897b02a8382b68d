(** Model of fit/algorithms/fitting.py.

    numpy's linear algebra is a parameter ([solver]): [np.linalg.lstsq] and
    [np.linalg.cond] may return or raise anything; what a theorem needs of them
    it states as a hypothesis.  Matrices are given by rows.  Messages printed
    are not modelled ([logging] matters only where it triggers a computation).

    [spline.Curve] and [spline.Surface] do not exist in the repository (see
    ModelInit.v).  The curve class is a parameter ([curve_class]): blank object,
    control point setter, [insert_knot], and the behaviour seen by
    parameterize.py; the degree and knot vector setters are those of
    base_geometry.py.  [working_class] is the class the module evidently
    expects; [repo_class] is the repository's.  Surfaces are records of plain
    attributes ([surf]). *)
From Verif Require Import Py Num ModelKnots ModelBasis ModelCurve ModelSurface ModelInit ModelParam.
Open Scope Z_scope.

Section Fit.
Context {K : Num}.

Record solver := mkSolver {
  sv_cond : list (list K) -> res K;                          (* np.linalg.cond(a) *)
  sv_lstsq : Z -> list (list K) -> list K -> res (list K)    (* np.linalg.lstsq(a, b)[0]; a has the given number of columns *)
}.

(** [m[:, j] = c]. *)
Definition aset_col (m : list (list K)) (j : Z) (c : list K) : res (list (list K)) :=
  let* c' := broadcast (zlen m) c in
  mapM (fun rx => aset (fst rx) j (snd rx)) (combine m c').
(** [a += b]. *)
Definition iadd (a b : list K) : res (list K) :=
  let* b' := broadcast (zlen a) b in Ok (vmap2 nadd a b').
(** [np.matmul(m.T, m)] for a matrix with [n] columns. *)
Definition gram (n : Z) (m : list (list K)) : res (list (list K)) :=
  let* cols := mapM (acol m) (zrange 0 n) in
  Ok (map (fun a => map (vdot a) cols) cols).

(** fitting.py:35-39, counting. *)
Definition count_fixed (P : list K) (fixed : list bool) : res Z :=
  for_range 0 (zlen P) (fun i n => let* b := aget fixed i in Ok (if b then n + 1 else n)) 0.

(** fitting.py:46-53, one column; state (Rfree, Rfixed, Qfixed, j, k). *)
Definition split_step (R : list (list K)) (P : list K) (fixed : list bool) (i : Z)
  (st : list (list K) * list (list K) * list K * Z * Z)
  : res (list (list K) * list (list K) * list K * Z * Z) :=
  let '(Rfree, Rfixed, Qfixed, j, k) := st in
  let* b := aget fixed i in
  let* col := acol R i in
  if b then
    let* Rfixed := aset_col Rfixed j col in
    let* x := aget P i in
    let* Qfixed := iadd Qfixed (map (fun c => (c * x)%num) col) in
    Ok (Rfree, Rfixed, Qfixed, j + 1, k)
  else
    let* Rfree := aset_col Rfree k col in
    Ok (Rfree, Rfixed, Qfixed, j, k + 1).

(** fitting.py:61-68, one entry; state (fullP, j). *)
Definition merge_step (P freeP : list K) (fixed : list bool) (i : Z) (st : list K * Z) : res (list K * Z) :=
  let* b := aget fixed i in
  if b then
    let* x := aget P i in
    let* full := aset (fst st) i x in Ok (full, snd st)
  else
    let* x := aget freeP (snd st) in
    let* full := aset (fst st) i x in Ok (full, snd st + 1).

(** fitting.py:16-70. *)
Definition linear_fit_fixed (sv : solver) (R : list (list K)) (Q P : list K) (fixed : list bool) (logging : Z)
  : res (list K) :=
  let* nfixed := count_fixed P fixed in
  if nfixed =? zlen P then Ok P else
  let* Rfree := np_full2 (zlen Q) (zlen P - nfixed) (0 : K)%num in
  let* Rfixed := np_full2 (zlen Q) nfixed (0 : K)%num in
  let* Qfixed := np_full (zlen Q) (0 : K)%num in
  let* st := for_range 0 (zlen P) (split_step R P fixed) (Rfree, Rfixed, Qfixed, 0, 0) in
  let '(Rfree, Rfixed, Qfixed, _, _) := st in
  let* _ := (if 2 <=? logging
             then let* a := gram (zlen P - nfixed) Rfree in let* _ := sv_cond sv a in Ok tt
             else Ok tt) in
  let* rhs := np_sub Q Qfixed in
  let* freeP := sv_lstsq sv (zlen P - nfixed) Rfree rhs in
  let* fullP := np_full (zlen P) (0 : K)%num in
  let* st := for_range 0 (zlen P) (merge_step P freeP fixed) (fullP, 0) in
  Ok (fst st).

(** fitting.py:106-114 / 189-198: partition of unity, then the condition number
    (computed in any case); [n] columns. *)
Definition check_unity (sv : solver) (n : Z) (n_mat : list (list K)) (rows : Z) : res unit :=
  let unity := map nsum n_mat in
  let total := nsum unity in
  if negb (isclose total (ofZ rows)) then Err ValueError else
  let* a := gram n n_mat in
  let* _ := sv_cond sv a in Ok tt.

(** fitting.py:94-99: matrix of basis function values; state (n_mat, row, col). *)
Definition curve_matrix (p : Z) (P : list (list K)) (kv : list K) (eval_u : list K) (rows : Z) : res (list (list K)) :=
  let* n_mat := np_full2 rows (zlen P) (0 : K)%num in
  let* st := for_range 0 (zlen eval_u) (fun u st =>
    let* st := for_range 0 (zlen P) (fun spanu st =>
      let '(m, row, col) := st in
      let* e := aget eval_u u in
      let* b := one_basis_function p kv spanu e in
      let* m := aset2 m row col b in
      Ok (m, row, col + 1)) st in
    let '(m, row, _) := st in Ok (m, row + 1, 0)) (n_mat, 0, 0) in
  Ok (fst (fst st)).

(** fitting.py:132-141 / 221-230: the three coordinate fits, stacked
    ([linear_fit_fixed] with its default [logging]). *)
Definition fit_coordinates (sv : solver) (n_mat : list (list K)) (rows P : list (list K)) (fixed : list bool)
  : res (list (list K)) :=
  let* q0 := acol rows 0 in
  let* p0 := acol P 0 in
  let* x := linear_fit_fixed sv n_mat q0 p0 fixed 1 in
  let* q1 := acol rows 1 in
  let* p1 := acol P 1 in
  let* y := linear_fit_fixed sv n_mat q1 p1 fixed 1 in
  let* q2 := acol rows 2 in
  let* p2 := acol P 2 in
  let* z := linear_fit_fixed sv n_mat q2 p2 fixed 1 in
  Ok (column_stack3 x y z).

(** fitting.py:120-121. *)
Definition curve_mask (n : Z) : res (list bool) :=
  let* fixed := np_full n false in
  let* fixed := aset fixed 0 true in
  aset fixed (-1) true.

(** fitting.py:73-141.  Attributes that are None raise TypeError (here at once,
    in the code when first used). *)
Definition single_fit_curve (set_ctrl : curve_obj K -> list (list K) -> res (curve_obj K)) (sv : solver)
  (c : curve_obj K) (rows : list (list K)) : res (curve_obj K) :=
  let* eval_u := acol rows (-1) in
  let* f := curve_fields c in
  let '(p, P, kv) := f in
  let* n_mat := curve_matrix p P kv eval_u (zlen rows) in
  let* _ := check_unity sv (zlen P) n_mat (zlen rows) in
  let* fixed := curve_mask (zlen P) in
  let* new_control_point := fit_coordinates sv n_mat rows P fixed in
  set_ctrl c new_control_point.

(** fitting.py:175-182: tensor product matrix; state (n_mat, row, col). *)
Definition surf_matrix (s : surf K) (eval_u eval_v : list K) (rows : Z) : res (list (list K)) :=
  let* n_mat := np_full2 rows (zlen (s_ctrl s)) (0 : K)%num in
  let* st := for_range 0 (zlen eval_u) (fun pt st =>
    let* st := for_range 0 (s_nu s) (fun spanu st =>
      for_range 0 (s_nv s) (fun spanv st =>
        let '(m, row, col) := st in
        let* eu := aget eval_u pt in
        let* bu := one_basis_function (s_pu s) (s_ku s) spanu eu in
        let* ev := aget eval_v pt in
        let* bv := one_basis_function (s_pv s) (s_kv s) spanv ev in
        let* m := aset2 m row col (bu * bv)%num in
        Ok (m, row, col + 1)) st) st in
    let '(m, row, _) := st in Ok (m, row + 1, 0)) (n_mat, 0, 0) in
  Ok (fst (fst st)).

(** [l[a:b] = v]. *)
Definition fill_slice {A} (l : list A) (a b : Z) (v : A) : list A :=
  let a' := slice_bound (zlen l) a in
  let b' := slice_bound (zlen l) b in
  map (fun ix => if (a' <=? fst ix) && (fst ix <? b') then v else snd ix) (combine (zrange 0 (zlen l)) l).

(** fitting.py:204-215. *)
Definition surf_mask (n nu nv : Z) : res (list bool) :=
  let* fixed := np_full n false in
  let fixed := fill_slice fixed 0 nv true in
  let fixed := fill_slice fixed (-1 * nv) n true in
  for_range 1 (nu - 1) (fun step fixed =>
    let sl := step * nv in
    let* fixed := aset fixed sl true in
    aset fixed (sl + nv - 1) true) fixed.

(** fitting.py:144-230. *)
Definition single_fit_surface (sv : solver) (s : surf K) (rows : list (list K)) : res (surf K) :=
  let* eval_u := acol rows 3 in
  let* eval_v := acol rows 4 in
  let* n_mat := surf_matrix s eval_u eval_v (zlen rows) in
  let* _ := check_unity sv (zlen (s_ctrl s)) n_mat (zlen rows) in
  let* fixed := surf_mask (zlen (s_ctrl s)) (s_nu s) (s_nv s) in
  let* new_control_point := fit_coordinates sv n_mat rows (s_ctrl s) fixed in
  Ok (mkSurf (s_pu s) (s_pv s) (s_nu s) (s_nv s) new_control_point (s_ku s) (s_kv s)).

(** ** Curve classes *)
Record curve_class := mkCurveClass {
  cl_blank : curve_obj K;
  cl_set_ctrl : curve_obj K -> list (list K) -> res (curve_obj K);
  cl_insert : curve_obj K -> K -> res (curve_obj K);
  cl_beh : curve_obj K -> curve_beh K
}.
(** bspline.py:111-128 with the local name fixed and a control point setter
    that assigns. *)
Definition insert_knot_working (c : curve_obj K) (u : K) : res (curve_obj K) :=
  if negb (validate_knot u) then Err ValueError else
  let* f := curve_fields c in
  let '(p, P, kv) := f in
  let* r := curve_knot_insertion p kv P u 1 in
  let* c := store_ctrl c (snd r) in
  set_knot_vector c (NdArray (fst r)).
Definition working_class : curve_class :=
  mkCurveClass (curve_init None None) store_ctrl insert_knot_working beh_of_curve3.
Definition repo_class : curve_class :=
  mkCurveClass (curve_init None None) set_control_points insert_knot beh_of_curve.

(** fitting.py:293-296 / 258-261: a copy made through the setters ([None < 1]
    is a TypeError, None has no [shape]). *)
Definition copy_curve (cl : curve_class) (c : curve_obj K) : res (curve_obj K) :=
  match c_degree c with
  | None => Err TypeError
  | Some d =>
      let* t := set_degree (cl_blank cl) d in
      match c_ctrl c with
      | None => Err AttributeError
      | Some P =>
          let* t := cl_set_ctrl cl t P in
          match c_kv c with
          | None => Err AttributeError
          | Some kv => set_knot_vector t (NdArray kv)
          end
      end
  end.

(** fitting.py:315-327: midpoints of the spans degree..maxk-1. *)
Definition span_midpoints (p : Z) (kv : list K) : res (list K) :=
  let maxk := zlen kv - p - 1 in
  let* knots := np_full (maxk - p) (0 : K)%num in
  for_range p maxk (fun k knots =>
    let* lft := aget kv k in
    let* rgt := aget kv (k + 1) in
    let mid := (lft + (rgt - lft) / ofZ 2)%num in
    aset knots (k - p) mid) knots.

(** fitting.py:299-332: the [while True] loop; [fuel] bounds the number of rounds. *)
Fixpoint insertion_loop (fuel : nat) (cl : curve_class) (sv : solver) (data : data_array K) (num_pts : Z)
  (temp : curve_obj K) : res (curve_obj K) :=
  match fuel with
  | O => Diverge
  | S k =>
      let* param_data := parameterize_curve (cl_beh cl temp) data in
      let* temp := single_fit_curve (cl_set_ctrl cl) sv temp param_data in
      match c_ctrl temp with
      | None => Err TypeError
      | Some P =>
          if num_pts <=? zlen P then Ok temp else
          let* f := curve_fields temp in
          let '(p, _, kv) := f in
          let* knots := span_midpoints p kv in
          let* temp := for_range 0 (zlen knots) (fun i t =>
            let* u := aget knots i in cl_insert cl t u) temp in
          insertion_loop k cl sv data num_pts temp
      end
  end.

(** fitting.py:275-334. *)
Definition fit_curve_knot_insertion_fuel (fuel : nat) (cl : curve_class) (sv : solver) (c : curve_obj K)
  (data : data_array K) (num_pts : Z) : res (curve_obj K) :=
  let* temp := copy_curve cl c in
  insertion_loop fuel cl sv data num_pts temp.
Definition fit_curve_knot_insertion (cl : curve_class) (sv : solver) (c : curve_obj K) (data : data_array K)
  (num_pts : Z) : res (curve_obj K) :=
  fit_curve_knot_insertion_fuel (S (Z.to_nat num_pts)) cl sv c data num_pts.

(** fitting.py:233-272. *)
Definition fit_curve_fixed_ctrlpts (cl : curve_class) (sv : solver) (c : curve_obj K) (data : data_array K)
  : res (curve_obj K) :=
  match c_ctrl c with
  | None => Err TypeError
  | Some P =>
      let* start := aget P 0 in
      let* stop := aget P (-1) in
      match c_degree c with
      | None => Err TypeError
      | Some p =>
          let* init := initialize_curve_with (cl_blank cl) (cl_set_ctrl cl) start stop p (p + 1) in
          match c_ctrl init with
          | None => Err TypeError
          | Some P0 =>
              let* fit := fit_curve_knot_insertion cl sv init data (zlen P0) in
              let* param_data := parameterize_curve (cl_beh cl fit) data in
              let* fixed := copy_curve cl c in
              let* fixed := single_fit_curve (cl_set_ctrl cl) sv fixed param_data in
              let* param_data := parameterize_curve (cl_beh cl fixed) data in
              single_fit_curve (cl_set_ctrl cl) sv fixed param_data
          end
      end
  end.

(** [np.column_stack((a, np.full(len(a), v)))]: width and rows. *)
Definition append_column (a : data_array K) (v : K) : Z * list (list K) :=
  (dt_cols a + 1, map (fun r => r ++ [v]) (dt_rows a)).
(** [np.vstack]: widths must agree. *)
Definition vstack (a : Z * list (list K)) (l : list (Z * list (list K))) : res (list (list K)) :=
  if forallb (fun b => fst b =? fst a) l then Ok (snd a ++ flat_map snd l) else Err ValueError.
(** fitting.py:337-389; lines 378-382 stack all the points, then overwrite the
    result with the sorted surface points.  [top], [bottom] are the boundaries' parameterised data. *)
Definition fit_surface (sv : solver) (s : surf K) (data : data_array K) (top bottom : option (data_array K))
  : res (surf K) :=
  let* param_data := parameterize_surface (beh_of_surf s) data in
  match top with
  | None => Err TypeError
  | Some top =>
      match bottom with
      | None => Err TypeError
      | Some bottom =>
          let* _ := vstack (dt_cols data + 2, param_data)
                      [append_column top (1 : K)%num; append_column bottom (0 : K)%num] in
          let* ordered := sort_view 5 [3%nat; 4%nat; 0%nat; 1%nat; 2%nat] (dt_cols data + 2) param_data in
          single_fit_surface sv s ordered
      end
  end.
End Fit.
Arguments solver K : clear implicits.
Arguments curve_class K : clear implicits.
