(** C51-C56, C65: least-squares fitting of curves and surfaces. *)
From Coq Require Import Floats.
From Verif Require Import Py Num ModelKnots ModelCurve ModelSurface ModelInit ModelParam ModelFit Spec SpecFit Examples
  ProofFit ProofFit2 ProofFit3 ProofFit4 ProofFit5 ProofFit6 ProofFit7 ProofFit8.
Open Scope R_scope.

(** ** C51: linear_fit_fixed keeps the fixed values, fills the free ones in order *)
Theorem C51_fixed_kept : forall (K : Num) sv (R : list (list K)) Q P fixed lg x, linear_fit_fixed sv R Q P fixed lg = Ok x ->
  (length P <= length fixed)%nat /\ length x = length P /\
  kept (firstn (length P) fixed) x = kept (firstn (length P) fixed) P /\
  (free (firstn (length P) fixed) P = [] /\ x = P \/
   exists A b y, sv_lstsq sv (Z.of_nat (length (free (firstn (length P) fixed) P))) A b = Ok y /\
     free (firstn (length P) fixed) x = firstn (length (free (firstn (length P) fixed) P)) y).
Proof. exact @linear_fit_fixed_parts. Qed.
Print Assumptions C51_fixed_kept.
Theorem C51_all_fixed : forall (K : Num) sv (R : list (list K)) Q P fixed lg, (length P <= length fixed)%nat ->
  Forall (fun b => b = true) (firstn (length P) fixed) -> linear_fit_fixed sv R Q P fixed lg = Ok P.
Proof. exact @linear_fit_fixed_all. Qed.
Print Assumptions C51_all_fixed.
Theorem C51_short_mask : forall (K : Num) sv (R : list (list K)) Q P fixed lg, (length fixed < length P)%nat ->
  linear_fit_fixed sv R Q P fixed lg = Err IndexError.
Proof. exact @linear_fit_fixed_short. Qed.
Print Assumptions C51_short_mask.
(** The condition number is computed from logging level 2 on; below, nothing depends on it. *)
Theorem C51_quiet : forall (K : Num) c1 c2 l (R : list (list K)) Q P fixed lg, (lg < 2)%Z ->
  linear_fit_fixed (mkSolver c1 l) R Q P fixed lg = linear_fit_fixed (mkSolver c2 l) R Q P fixed lg.
Proof. exact @linear_fit_fixed_quiet. Qed.
Print Assumptions C51_quiet.
Theorem C51_condition : forall sv R Q P fixed lg n e, (2 <= lg)%Z -> (forall M, sv_cond sv M = Err e) ->
  Forall (fun r => length r = n) R -> length R = length Q -> length P = n -> (n <= length fixed)%nat ->
  In false (firstn n fixed) -> linear_fit_fixed sv (fin2 R) (fin Q) (fin P) fixed lg = Err e.
Proof. exact linear_fit_fixed_cond. Qed.
Print Assumptions C51_condition.
Definition tall : list (list Binary64) := [[1; 2; 0]; [0; 1; 1]; [2; 0; 1]; [1; 1; 1]]%float.
(** A solver that must not be called. *)
Definition no_solver : solver Binary64 := mkSolver (K := Binary64) (fun _ => Err LinAlgError) (fun _ _ _ => Err LinAlgError).
Example C51_example :
  linear_fit_fixed (gs_solver Binary64) tall [1; 2; 3; 4]%float [5; 9; 7]%float [true; false; true] 2 = Ok [5; -3.5; 7]%float /\
  linear_fit_fixed no_solver tall [1; 2; 3; 4]%float [5; 9; 7]%float [true; true; true; false] 2 = Ok [5; 9; 7]%float /\
  linear_fit_fixed (gs_solver Binary64) tall [1; 2; 3; 4]%float [5; 9; 7]%float [true; true] 1 = Err IndexError /\
  (let sv := mkSolver (K := Binary64) (fun _ => Err LinAlgError) (sv_lstsq (gs_solver Binary64)) in
   linear_fit_fixed sv tall [1; 2; 3; 4]%float [5; 9; 7]%float [true; false; true] 1 = Ok [5; -3.5; 7]%float /\
   linear_fit_fixed sv tall [1; 2; 3; 4]%float [5; 9; 7]%float [true; false; true] 2 = Err LinAlgError).
Proof. split; [|split; [|split; [|split]]]; vm_compute; reflexivity. Qed.

(** ** C52: it is the constrained least-squares optimum *)
Theorem C52_optimal : forall sv R Q P fixed lg n, least_squares sv ->
  Forall (fun r => length r = n) R -> length R = length Q -> length P = n -> (n <= length fixed)%nat ->
  exists x, linear_fit_fixed sv (fin2 R) (fin Q) (fin P) fixed lg = Ok (fin x) /\ length x = n /\
    kept (firstn n fixed) x = kept (firstn n fixed) P /\
    forall z, length z = n -> kept (firstn n fixed) z = kept (firstn n fixed) P -> sq_err R Q x <= sq_err R Q z.
Proof. exact linear_fit_fixed_exact. Qed.
Print Assumptions C52_optimal.
(** Such solvers exist: Gram-Schmidt orthogonalisation is one. *)
Theorem C52_solver : least_squares (gs_solver Exact).
Proof. exact gs_solver_least_squares. Qed.
Print Assumptions C52_solver.
(** The least-squares problem of C51_example: with the outer values kept,
    -3.5 is the optimum (sum of squares 227.5). *)
Example C52_example :
  sq_err [[1; 2; 0]; [0; 1; 1]; [2; 0; 1]; [1; 1; 1]] [1; 2; 3; 4] [5; -7/2; 7] = 455/2 /\
  (forall t, sq_err [[1; 2; 0]; [0; 1; 1]; [2; 0; 1]; [1; 1; 1]] [1; 2; 3; 4] [5; t; 7] = 455/2 + 6 * (t + 7/2) * (t + 7/2)).
Proof. split; [|intros t]; unfold sq_err, dotR; cbn; field. Qed.

(** ** C53: curves *)
Theorem C53_optimal : forall sv c p U P rows, least_squares sv -> tight (Z.of_nat p) (len P) U ->
  c_degree c = Some (Z.of_nat p) -> c_ctrl c = Some (fin2 P) -> c_kv c = Some (fin U) ->
  Forall (fun r => length r = 3%nat) P ->
  Forall (fun r => length r = 4%nat /\ kn U (Z.of_nat p) <= nth 3 r 0 <= kn U (len P)) rows ->
  exists P', single_fit_curve store_ctrl sv c (fin2 rows) = Ok (mkCurve (c_degree c) (Some (fin2 P')) (c_kv c) (c_dim c)) /\
    length P' = length P /\ Forall (fun r => length r = 3%nat) P' /\
    nth 0 P' [] = nth 0 P [] /\ last P' [] = last P [] /\
    forall Z, length Z = length P -> nth 0 Z [] = nth 0 P [] -> last Z [] = last P [] -> curve_err U p P' rows <= curve_err U p Z rows.
Proof. exact single_fit_curve_exact. Qed.
Print Assumptions C53_optimal.
(** Whatever the numbers and the solver: degree, knots, number of points, ends. *)
Theorem C53_kept : forall (K : Num) sv (c c' : curve_obj K) rows P, c_ctrl c = Some P -> Forall (fun r => length r = 3%nat) P ->
  single_fit_curve store_ctrl sv c rows = Ok c' ->
  exists Q, c' = mkCurve (c_degree c) (Some Q) (c_kv c) (c_dim c) /\
    length Q = length P /\ Forall (fun r => length r = 3%nat) Q /\ nth 0 Q [] = nth 0 P [] /\ last Q [] = last P [].
Proof. exact @single_fit_curve_any. Qed.
Print Assumptions C53_kept.
(** With the repository's control point setter the fit is thrown away. *)
Theorem C53_repo_class : forall (K : Num) sv (c c' : curve_obj K) rows, single_fit_curve set_control_points sv c rows = Ok c' -> c' = c.
Proof. exact @single_fit_curve_repo. Qed.
Print Assumptions C53_repo_class.
Definition flat_curve : curve_obj Binary64 :=
  mkCurve (K := Binary64) (Some 2%Z) (Some [[0; 0; 0]; [1; 0; 0]; [2; 0; 0]; [3; 0; 0]]%float) (Some [0; 0; 0; 0.5; 1; 1; 1]%float) 3.
Definition hill : list (list Binary64) :=
  [[0; 0; 0; 0]; [0.5; 1; 0; 0.25]; [1.5; 2; 0; 0.5]; [2.5; 1; 0; 0.75]; [3; 0; 0; 1]]%float.
Example C53_example :
  (match single_fit_curve store_ctrl (gs_solver Binary64) flat_curve hill with
   | Ok c => match c_ctrl c with
             | Some [[x0; y0; _]; [x1; y1; _]; [x2; y2; _]; [x3; y3; _]] =>
                 ((x0 =? 0) && (x1 =? 0.25) && (1.625 <? y1) && (y1 <? 1.6875) && (x2 =? 2.75) && (y2 =? y1) && (x3 =? 3) && (y3 =? 0))%float
             | _ => false end
   | _ => false end) = true /\
  single_fit_curve set_control_points (gs_solver Binary64) flat_curve hill = Ok flat_curve /\
  (** a parameter outside the domain fails the partition of unity *)
  single_fit_curve store_ctrl (gs_solver Binary64) flat_curve ([0; 0; 0; 1.5]%float :: hill) = Err ValueError.
Proof.
  split; [vm_compute; reflexivity|split].
  - vm_cast_no_check (eq_refl (Ok flat_curve)).
  - vm_cast_no_check (eq_refl (Err ValueError : res (curve_obj Binary64))).
Qed.
Example C53_hypotheses : tight 2 4 [0; 0; 0; 1/2; 1; 1; 1].
Proof. split; [solve_clamped|split; kn_eval; lra]. Qed.

(** Parameters outside the domain contribute 0 to the partition of unity, so
    that the check counts them: more than 1e-8 + 1e-5 m of m points are refused
    by ValueError, whatever the solver; fewer pass, and the fit is optimal with
    these points on no part of the curve (curve_xyz is 0 there).  An error of
    np.linalg.cond surfaces although the number is not used. *)
Theorem C53_unity : forall sv c p U P rows, tight (Z.of_nat p) (len P) U ->
  c_degree c = Some (Z.of_nat p) -> c_ctrl c = Some (fin2 P) -> c_kv c = Some (fin U) ->
  Forall (fun r => length r = 3%nat) P -> Forall (fun r => length r = 4%nat) rows ->
  let strays := INR (curve_strays U (Z.of_nat p) (len P) rows) in
  let allowed := 1/100000000 + 1/100000 * INR (length rows) in
  (allowed < strays -> forall set, single_fit_curve set sv c (fin2 rows) = Err ValueError) /\
  (strays <= allowed -> forall set e, (forall M, sv_cond sv M = Err e) -> single_fit_curve set sv c (fin2 rows) = Err e) /\
  (strays <= allowed -> least_squares sv ->
   exists P', single_fit_curve store_ctrl sv c (fin2 rows) = Ok (mkCurve (c_degree c) (Some (fin2 P')) (c_kv c) (c_dim c)) /\
    length P' = length P /\ Forall (fun r => length r = 3%nat) P' /\
    nth 0 P' [] = nth 0 P [] /\ last P' [] = last P [] /\
    forall Z, length Z = length P -> nth 0 Z [] = nth 0 P [] -> last Z [] = last P [] -> curve_err U p P' rows <= curve_err U p Z rows).
Proof. exact single_fit_curve_gen. Qed.
Print Assumptions C53_unity.
(** One stray among two points is refused; one among 100000 is not. *)
Example C53_strays : let U := [0; 0; 0; 1/2; 1; 1; 1] in
  curve_strays U 2 4 [[0; 0; 0; 1/4]; [0; 0; 0; 5/4]] = 1%nat /\ 1/100000000 + 1/100000 * INR 2 < INR 1 /\
  curve_strays U 2 4 ([0; 0; 0; 5/4] :: repeat [0; 0; 0; 1/4] (Z.to_nat 99999)) = 1%nat /\ INR 1 <= 1/100000000 + 1/100000 * INR (Z.to_nat 100000).
Proof.
  assert (A : outsideb 0 1 (1/4) = false) by (unfold outsideb; destruct (Rlt_dec _ _); [lra|]; destruct (Rlt_dec _ _); [lra|reflexivity]).
  assert (B : outsideb 0 1 (5/4) = true) by (unfold outsideb; destruct (Rlt_dec _ _); [lra|]; destruct (Rlt_dec _ _); [reflexivity|lra]).
  assert (E : forall n, filter (fun r => outsideb 0 1 (nth 3 r 0)) (repeat [0; 0; 0; 1/4] n) = [])
    by (intros n; induction n as [|n IH]; [reflexivity|cbn [repeat filter nth]; rewrite A; exact IH]).
  intros U; unfold curve_strays; change (kn U 2) with 0; change (kn U 4) with 1.
  split; [cbn [filter nth]; rewrite A, B; reflexivity|]; split; [cbn; lra|].
  split; [cbn [filter nth]; rewrite B, E; reflexivity|]; rewrite (INR_IZR_INZ (Z.to_nat 100000)), Z2Nat.id by lia; cbn [INR]; lra.
Qed.

(** ** C54: surfaces *)
Theorem C54_mask : forall nu nv, (1 <= nu)%nat -> (1 <= nv)%nat ->
  exists m, surf_mask (Z.of_nat (nu * nv)) (Z.of_nat nu) (Z.of_nat nv) = Ok m /\ length m = (nu * nv)%nat /\
    forall i j, (i < nu)%nat -> (j < nv)%nat ->
      (nth (i * nv + j) m false = true <-> i = 0%nat \/ i = (nu - 1)%nat \/ j = 0%nat \/ j = (nv - 1)%nat).
Proof. exact surf_mask_tab. Qed.
Print Assumptions C54_mask.
Theorem C54_optimal : forall sv p q nu nv U V P rows, least_squares sv ->
  tight (Z.of_nat p) (Z.of_nat nu) U -> tight (Z.of_nat q) (Z.of_nat nv) V ->
  length P = (nu * nv)%nat -> Forall (fun r => length r = 3%nat) P ->
  Forall (fun r => length r = 5%nat /\ kn U (Z.of_nat p) <= nth 3 r 0 <= kn U (Z.of_nat nu) /\ kn V (Z.of_nat q) <= nth 4 r 0 <= kn V (Z.of_nat nv)) rows ->
  exists P', single_fit_surface sv (mkSurf (Z.of_nat p) (Z.of_nat q) (Z.of_nat nu) (Z.of_nat nv) (fin2 P) (fin U) (fin V)) (fin2 rows)
      = Ok (mkSurf (Z.of_nat p) (Z.of_nat q) (Z.of_nat nu) (Z.of_nat nv) (fin2 P') (fin U) (fin V)) /\
    length P' = length P /\ Forall (fun r => length r = 3%nat) P' /\
    (forall i j, (i < nu)%nat -> (j < nv)%nat -> i = 0%nat \/ i = (nu - 1)%nat \/ j = 0%nat \/ j = (nv - 1)%nat ->
       nth (i * nv + j) P' [] = nth (i * nv + j) P []) /\
    forall Z, length Z = length P ->
      (forall i j, (i < nu)%nat -> (j < nv)%nat -> i = 0%nat \/ i = (nu - 1)%nat \/ j = 0%nat \/ j = (nv - 1)%nat ->
         nth (i * nv + j) Z [] = nth (i * nv + j) P []) ->
      surface_err U V p q nu nv P' rows <= surface_err U V p q nu nv Z rows.
Proof. exact single_fit_surface_exact. Qed.
Print Assumptions C54_optimal.
(** Likewise: points with a parameter outside the domain are refused by
    ValueError if they are more than 1e-8 + 1e-5 m of m points. *)
Theorem C54_unity : forall sv p q nu nv U V P rows,
  tight (Z.of_nat p) (Z.of_nat nu) U -> tight (Z.of_nat q) (Z.of_nat nv) V ->
  length P = (nu * nv)%nat -> Forall (fun r => length r = 3%nat) P -> Forall (fun r => length r = 5%nat) rows ->
  let strays := INR (surf_strays U V (Z.of_nat p) (Z.of_nat q) (Z.of_nat nu) (Z.of_nat nv) rows) in
  let allowed := 1/100000000 + 1/100000 * INR (length rows) in
  let run := single_fit_surface sv (mkSurf (Z.of_nat p) (Z.of_nat q) (Z.of_nat nu) (Z.of_nat nv) (fin2 P) (fin U) (fin V)) (fin2 rows) in
  (allowed < strays -> run = Err ValueError) /\
  (strays <= allowed -> forall e, (forall M, sv_cond sv M = Err e) -> run = Err e) /\
  (strays <= allowed -> least_squares sv ->
   exists P', run = Ok (mkSurf (Z.of_nat p) (Z.of_nat q) (Z.of_nat nu) (Z.of_nat nv) (fin2 P') (fin U) (fin V)) /\
    length P' = length P /\ Forall (fun r => length r = 3%nat) P' /\
    (forall i j, (i < nu)%nat -> (j < nv)%nat -> i = 0%nat \/ i = (nu - 1)%nat \/ j = 0%nat \/ j = (nv - 1)%nat ->
       nth (i * nv + j) P' [] = nth (i * nv + j) P []) /\
    forall Z, length Z = length P ->
      (forall i j, (i < nu)%nat -> (j < nv)%nat -> i = 0%nat \/ i = (nu - 1)%nat \/ j = 0%nat \/ j = (nv - 1)%nat ->
         nth (i * nv + j) Z [] = nth (i * nv + j) P []) ->
      surface_err U V p q nu nv P' rows <= surface_err U V p q nu nv Z rows).
Proof. exact single_fit_surface_gen. Qed.
Print Assumptions C54_unity.
Example C54_strays : let U := [0; 0; 1/2; 1; 1] in
  surf_strays U U 1 1 3 3 [[0; 0; 0; 1/4; 5/4]; [0; 0; 0; -1; 5/4]; [0; 0; 0; 1/4; 1]] = 2%nat.
Proof.
  intros U; unfold surf_strays; change (kn U 1) with 0; change (kn U 3) with 1; cbn [filter nth]; unfold outsideb.
  repeat (destruct (Rlt_dec _ _); try lra; cbn [orb]); reflexivity.
Qed.
Definition sheet (p : Z) (k : list Binary64) : surf Binary64 := mkSurf (K := Binary64) p p 3 3
  [[0; 0; 0]; [0; 0.5; 0]; [0; 1; 0]; [0.5; 0; 0]; [0.5; 0.5; 0]; [0.5; 1; 0]; [1; 0; 0]; [1; 0.5; 0]; [1; 1; 0]]%float k k.
(** The middle point follows the data, the corner does not. *)
Example C54_example :
  single_fit_surface (gs_solver Binary64) (sheet 1 [0; 0; 0.5; 1; 1]%float) [[0.5; 0.5; 1; 0.5; 0.5]; [0; 0; 5; 0; 0]]%float
  = Ok (mkSurf (K := Binary64) 1 1 3 3
      [[0; 0; 0]; [0; 0.5; 0]; [0; 1; 0]; [0.5; 0; 0]; [0.5; 0.5; 1]; [0.5; 1; 0]; [1; 0; 0]; [1; 0.5; 0]; [1; 1; 0]]%float
      [0; 0; 0.5; 1; 1]%float [0; 0; 0.5; 1; 1]%float) /\
  surf_mask 12 3 4 = Ok [true; true; true; true; true; false; false; true; true; true; true; true].
Proof.
  split; [|vm_compute; reflexivity].
  match goal with |- _ = ?r => vm_cast_no_check (eq_refl r) end.
Qed.

(** ** C55: the adaptive fit *)
(** At most [num_pts] rounds. *)
Theorem C55_rounds : forall (K : Num) sv (c : curve_obj K) data num p P fuel, c_degree c = Some p -> c_ctrl c = Some P ->
  (p + 1 <= zlen P)%Z -> (Z.to_nat num < fuel)%nat ->
  fit_curve_knot_insertion_fuel fuel working_class sv c data num = fit_curve_knot_insertion working_class sv c data num.
Proof. exact @insertion_rounds. Qed.
Print Assumptions C55_rounds.
Theorem C55_repo_class : forall (K : Num) sv (c t : curve_obj K) data num, fit_curve_knot_insertion repo_class sv c data num <> Ok t.
Proof. exact @insertion_repo. Qed.
Print Assumptions C55_repo_class.
(** Starting from a single segment, the result has [degree + 2^k] control points for the least [k] that reaches
    [num_pts], uniform knots, the same end points, and is optimal for the parameters found in the last round. *)
Theorem C55_count : forall sv p num data (c : curve_obj Exact) P c', least_squares sv -> (1 <= p)%nat -> (num <= Z.of_nat p + 65536)%Z ->
  Forall (fun r => length r = 3%nat) data -> Forall (fun r => length r = 3%nat) P -> length P = S p ->
  c_degree c = Some (Z.of_nat p) -> c_ctrl c = Some (fin2 P) -> c_kv c = Some (fin (repeat 0%R (S p) ++ repeat 1%R (S p))) ->
  fit_curve_knot_insertion working_class sv c (mkData 3 (fin2 data)) num = Ok c' ->
  exists k Q U P0 pts,
    c' = mkCurve (K := Exact) (Some (Z.of_nat p)) (Some (fin2 Q)) (Some (fin U)) 0 /\
    (len Q = Z.of_nat p + 2 ^ Z.of_nat k)%Z /\ (num <= len Q)%Z /\ (k = 0%nat \/ (Z.of_nat p + 2 ^ Z.of_nat (k - 1) < num)%Z) /\
    nth 0 Q [] = nth 0 P [] /\ last Q [] = last P [] /\ Forall (fun r => length r = 3%nat) Q /\
    (len U = len Q + Z.of_nat p + 1)%Z /\
    (forall i, (0 <= i < len U)%Z ->
       kn U i = if (i <=? Z.of_nat p)%Z then 0%R else if (len Q <=? i)%Z then 1%R
                else (IZR (i - Z.of_nat p) / IZR (2 ^ Z.of_nat k))%R) /\
    parameterize_curve (beh_of_curve3 (mkCurve (K := Exact) (Some (Z.of_nat p)) (Some (fin2 P0)) (Some (fin U)) 0)) (mkData 3 (fin2 data))
      = Ok (fin2 pts) /\
    forall W, length W = length Q -> nth 0 W [] = nth 0 P [] -> last W [] = last P [] ->
      (curve_err U p Q pts <= curve_err U p W pts)%R.
Proof. exact adaptive_fit. Qed.
Print Assumptions C55_count.
Definition segment2 : curve_obj Binary64 :=
  mkCurve (K := Binary64) (Some 2%Z) (Some [[0; 0; 0]; [1; 0; 0]; [2; 0; 0]]%float) (Some [0; 0; 0; 1; 1; 1]%float) 3.
Definition arch := mkData (K := Binary64) 3 [[0.125; 0.25; 0]; [0.5; 0.75; 0]; [1; 1; 0]; [1.5; 0.75; 0]; [1.75; 0.25; 0]]%float.
(** Asking for 3, 4, 5 control points of degree 2 gives 3, 4, 6. *)
Example C55_example :
  map (fun n => match fit_curve_knot_insertion working_class (gs_solver Binary64) segment2 arch n with
                | Ok c => match c_ctrl c with Some P => Some (zlen P, c_kv c) | None => None end | _ => None end) [3; 4; 5]%Z
  = [Some (3%Z, Some [0; 0; 0; 1; 1; 1]%float); Some (4%Z, Some [0; 0; 0; 0.5; 1; 1; 1]%float);
     Some (6%Z, Some [0; 0; 0; 0.25; 0.5; 0.75; 1; 1; 1]%float)].
Proof. vm_compute; reflexivity. Qed.

(** ** C56: fit_surface and the boundary data *)
Theorem C56_ignored : forall (K : Num) sv (s : surf K) data (t1 t2 b1 b2 : data_array K),
  dt_cols t1 = dt_cols t2 -> dt_cols b1 = dt_cols b2 ->
  fit_surface sv s data (Some t1) (Some b1) = fit_surface sv s data (Some t2) (Some b2).
Proof. exact fit_surface_widths. Qed.
Print Assumptions C56_ignored.
Theorem C56_bad_width : forall (K : Num) sv (s : surf K) data (t b : data_array K) rows,
  parameterize_surface (beh_of_surf s) data = Ok rows -> (dt_cols t <> dt_cols data + 1 \/ dt_cols b <> dt_cols data + 1)%Z ->
  fit_surface sv s data (Some t) (Some b) = Err ValueError.
Proof. exact fit_surface_bad_width. Qed.
Print Assumptions C56_bad_width.
Theorem C56_missing : forall (K : Num) sv (s : surf K) data t b s', t = None \/ b = None -> fit_surface sv s data t b <> Ok s'.
Proof. exact fit_surface_no_boundary. Qed.
Print Assumptions C56_missing.
(** The result is the optimal fit to the projections of the interior points alone. *)
Theorem C56_optimal : forall sv p q nu nv U V P rows top bot out, least_squares sv ->
  tight (Z.of_nat p) (Z.of_nat nu) U -> tight (Z.of_nat q) (Z.of_nat nv) V ->
  kn U (Z.of_nat p) = 0 -> kn U (Z.of_nat nu) = 1 -> kn V (Z.of_nat q) = 0 -> kn V (Z.of_nat nv) = 1 ->
  length P = (nu * nv)%nat -> Forall (fun r => length r = 3%nat) P -> Forall (fun r => length r = 3%nat) rows ->
  dt_cols top = 4%Z -> dt_cols bot = 4%Z ->
  let s := mkSurf (K := Exact) (Z.of_nat p) (Z.of_nat q) (Z.of_nat nu) (Z.of_nat nv) (fin2 P) (fin U) (fin V) in
  parameterize_surface (beh_of_surf s) (mkData 3 (fin2 rows)) = Ok out ->
  exists pts P', out = fin2 pts /\
    fit_surface sv s (mkData 3 (fin2 rows)) (Some top) (Some bot)
      = Ok (mkSurf (Z.of_nat p) (Z.of_nat q) (Z.of_nat nu) (Z.of_nat nv) (fin2 P') (fin U) (fin V)) /\
    length P' = length P /\ Forall (fun r => length r = 3%nat) P' /\
    (forall i j, (i < nu)%nat -> (j < nv)%nat -> i = 0%nat \/ i = (nu - 1)%nat \/ j = 0%nat \/ j = (nv - 1)%nat ->
       nth (i * nv + j) P' [] = nth (i * nv + j) P []) /\
    forall Z, length Z = length P ->
      (forall i j, (i < nu)%nat -> (j < nv)%nat -> i = 0%nat \/ i = (nu - 1)%nat \/ j = 0%nat \/ j = (nv - 1)%nat ->
         nth (i * nv + j) Z [] = nth (i * nv + j) P []) ->
      surface_err U V p q nu nv P' pts <= surface_err U V p q nu nv Z pts.
Proof. exact fit_surface_exact. Qed.
Print Assumptions C56_optimal.
Definition bump := mkData (K := Binary64) 3 [[0.5; 0.5; 1]; [0.25; 0.25; 0.5]]%float.
Definition middle (r : res (surf Binary64)) : option Binary64 :=
  match r with Ok s => match nth 4 (s_ctrl s) [] with [_; _; z] => Some z | _ => None end | _ => None end.
Example C56_example : let s := sheet 2 [0; 0; 0; 1; 1; 1]%float in
  let far := mkData (K := Binary64) 4 [[0; 0; 1000; 0.5]; [1; 1; 1000; 0.75]]%float in
  let none := mkData (K := Binary64) 4 [] in
  middle (fit_surface (gs_solver Binary64) s bump (Some far) (Some far)) = middle (fit_surface (gs_solver Binary64) s bump (Some none) (Some none)) /\
  (match middle (fit_surface (gs_solver Binary64) s bump (Some far) (Some far)) with Some z => (3.875 <? z)%float && (z <? 3.90625)%float | None => false end) = true /\
  fit_surface (gs_solver Binary64) s bump (Some bump) (Some far) = Err ValueError.
Proof.
  split; [vm_compute; reflexivity|split; [vm_compute; reflexivity|]].
  vm_cast_no_check (eq_refl (Err ValueError : res (surf Binary64))).
Qed.

(** ** C65: the fit with a given number of control points *)
Theorem C65_kept : forall (K : Num) sv (c c' : curve_obj K) data p P, c_degree c = Some p -> c_ctrl c = Some P ->
  Forall (fun r => length r = 3%nat) P ->
  fit_curve_fixed_ctrlpts working_class sv c data = Ok c' ->
  exists Q kv, c_kv c = Some kv /\ c' = mkCurve (Some p) (Some Q) (Some kv) 0 /\ length Q = length P /\
    Forall (fun r => length r = 3%nat) Q /\ nth 0 Q [] = nth 0 P [] /\ last Q [] = last P [].
Proof. exact @fixed_ctrlpts_keeps. Qed.
Print Assumptions C65_kept.
Theorem C65_repo_class : forall (K : Num) sv (c c' : curve_obj K) data, fit_curve_fixed_ctrlpts repo_class sv c data <> Ok c'.
Proof. exact @fixed_ctrlpts_repo. Qed.
Print Assumptions C65_repo_class.
Example C65_example :
  match fit_curve_fixed_ctrlpts working_class (gs_solver Binary64) flat_curve arch with
  | Ok c => match c_ctrl c with
            | Some [[x0; y0; z0]; [_; y1; _]; [_; y2; _]; [x3; y3; z3]] => ((x0 =? 0) && (y0 =? 0) && (1 <? y1) && (y2 <? 0) && (x3 =? 3) && (y3 =? 0))%float
            | _ => false end
  | _ => false end = true.
Proof. vm_compute; reflexivity. Qed.
