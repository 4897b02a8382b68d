(** The expected values of the repository's own unit tests, checked on the
    model in binary64.  Each example cites its test; tests that cannot pass on
    the present code are listed with what happens instead. *)
From Coq Require Import String Floats.
From Verif Require Import Py Num ModelKnots ModelBasis ModelCurve ModelSurface ModelInit ModelParam ModelFit ModelIO ModelData.
Open Scope Z_scope.

(** [np.allclose(a, b, atol=...)] on arrays of equal shape. *)
Definition near (atol : Binary64) (a b : list Binary64) : bool :=
  (zlen a =? zlen b) && forallb (fun t => isclose_tol (K := Binary64) lit_1em5 atol (fst t) (snd t)) (combine a b).
Definition near2 (atol : Binary64) (a b : list (list Binary64)) : bool :=
  (zlen a =? zlen b) && forallb (fun t => near atol (fst t) (snd t)) (combine a b).
Definition tol : Binary64 := lit_1em8.
Definition okb {A} (f : A -> bool) (r : res A) : bool := match r with Ok x => f x | _ => false end.

(** ** tests/test_knots.py *)
Definition book : list Binary64 := [0; 0; 0; 1; 2; 3; 4; 4; 5; 5; 5]%float.
(** test_find_span, 17-37. *)
Example test_find_span :
  map (fun u => find_span (K := Binary64) 8 2 u book) [2.5; 0.5; 3.5; 4.5; 3; 0; 5]%float
  = [Ok 4; Ok 2; Ok 5; Ok 7; Ok 5; Ok 2; Ok 7].
Proof. vm_compute; reflexivity. Qed.
(** test_normalize, 40-48. *)
Example test_normalize :
  okb (fun l => near tol l [0; 0; 0; 0.5; 1; 1; 1]%float) (normalize (K := Binary64) (NdArray (K := Binary64) [0; 0; 0; 1; 2; 2; 2]%float)) = true.
Proof. vm_compute; reflexivity. Qed.
(** test_check, test_check2, test_check3, 51-84: expected True, True, False, but
    the knot vectors are lists, for which the code raises AttributeError; as
    arrays they give the expected results. *)
Example test_check :
  map (fun t => check_knot_vector (K := Binary64) 2 (NdArray (K := Binary64) (fst t)) (snd t))
    [([0; 0; 0; 0.5; 1; 1; 1], 4%Z); ([0; 0; 0; 1; 2; 2; 2], 4%Z); ([0; 0; 0; 1; 2; 2; 2], 5%Z)]%float = [Ok true; Ok true; Ok false] /\
  check_knot_vector (K := Binary64) 2 (PyList (K := Binary64) [0; 0; 0; 0.5; 1; 1; 1]%float) 4 = Err AttributeError.
Proof. split; vm_compute; reflexivity. Qed.
(** test_generate, test_generate2, test_generate3, 87-123. *)
Example test_generate :
  okb (fun l => near tol l [0; 0; 0; 0.5; 1; 1; 1]%float) (generate_uniform 2 4) &&
  okb (fun l => near tol l [0; 0; 0; 0; 1; 1; 1; 1]%float) (generate_uniform 3 4) &&
  okb (fun l => near tol l [0; 0; 0; 0.25; 0.5; 0.75; 1; 1; 1]%float) (generate_uniform 2 6) = true.
Proof. vm_compute; reflexivity. Qed.
(** test_multiplicity, test_multiplicity2, test_multiplicity3, 126-162. *)
Example test_multiplicity :
  map (fun u => find_multiplicity (K := Binary64) u [0; 0; 0; 0.25; 0.5; 0.75; 1; 1; 1]%float) [0.625; 0.5; 0]%float = [0; 1; 3].
Proof. vm_compute; reflexivity. Qed.

(** ** tests/test_basis.py *)
(** test_basis_functions, test_basis_functions2, 17-48. *)
Example test_basis_functions :
  okb (fun l => near tol l [0.125; 0.75; 0.125]%float && isclose (K := Binary64) (nsum (K := Binary64) l) 1%float)
    (basis_functions (K := Binary64) 4 2.5%float 2 book) = true.
Proof. vm_compute; reflexivity. Qed.
(** test_basis_function_ders, 51-69. *)
Example test_basis_function_ders :
  okb (fun m => near2 tol m [[0.125; -0.5; 1]; [0.75; 0; -2]; [0.125; 0.5; 1]]%float)
    (basis_function_ders (K := Binary64) 4 2.5%float 2 book 2) = true.
Proof. vm_compute; reflexivity. Qed.
(** test_one_basis_function, 72-89. *)
Example test_one_basis_function :
  okb (fun x => isclose (K := Binary64) x 0.75%float) (one_basis_function (K := Binary64) 2 book 3 2.5%float) &&
  okb (fun x => isclose (K := Binary64) x 0.125%float) (one_basis_function (K := Binary64) 2 book 4 2.5%float) = true.
Proof. vm_compute; reflexivity. Qed.
(** test_one_basis_function_ders, 92-108. *)
Example test_one_basis_function_ders :
  okb (fun l => near tol l [0.125; 0.5; 1]%float) (one_basis_function_ders (K := Binary64) 2 book 4 2.5%float 2) = true.
Proof. vm_compute; reflexivity. Qed.

(** ** tests/test_spline.py *)
(** The fixtures assign control points, which the repository's class does not
    store (C33); the objects below have them. *)
Definition curve2 : curve_obj Binary64 := mkCurve (K := Binary64) (Some 2)
  (Some [[0; 0; 0]; [1; 2; 0]; [2; 4; 0]; [3; 4; 0]; [4; 2; 0]; [5; 0; 0]]%float)
  (Some [0; 0; 0; 0.375; 0.5; 0.625; 1; 1; 1]%float) 3.
Definition curve2_values : list (list Binary64) :=
  [[0; 0; 0]; [1.2222222222; 2.444444444444; 0]; [2.5; 4; 0]; [3.77777777778; 2.44444444444; 0]; [5; 0; 0]]%float.
Definition quarters : list Binary64 := [0; 0.25; 0.5; 0.75; 1]%float.
(** test_curve_single_point, test_curve_points, 103-132. *)
Example test_curve_points : okb (fun m => near2 tol m curve2_values) (points curve2 (ND1 quarters)) = true.
Proof. vm_compute; reflexivity. Qed.
(** test_curve_derivpt, test_curve_deriv1, 135-167: with [derivatives] filling
    all three coordinates; as written it raises (C34). *)
Definition unit_vec (v : list Binary64) : list Binary64 := map (fun x => (x / vnorm v)%num) v.
Example test_curve_derivatives :
  forallb (fun t => okb (fun m => near tol (nth 0 m []) (snd t)) (derivatives3 curve2 (fst t) 2)) (combine quarters curve2_values) &&
  forallb (fun t => okb (fun m => near tol (unit_vec (nth 1 m [])) (unit_vec (snd t))) (derivatives3 curve2 (fst t) 2))
    [(0, [1; 2; 0]); (0.25, [1; 2; 0]); (0.75, [1; -2; 0]); (1, [1; -2; 0])]%float = true /\
  match derivatives curve2 0.25%float 2 true with Err ValueError => true | _ => false end = true.
Proof. split; vm_compute; reflexivity. Qed.
(** test_curve_insertion, 2 and 3, 170-206: the insertion algorithm; the method
    itself raises (C37). *)
Example test_curve_insertion :
  match curve_knot_insertion (K := Binary64) 2 [0; 0; 0; 0.375; 0.5; 0.625; 1; 1; 1]%float
          (match c_ctrl curve2 with Some P => P | None => [] end) 0.875%float 1 with
  | Ok (kv, P) =>
      near tol kv [0; 0; 0; 0.375; 0.5; 0.625; 0.875; 1; 1; 1]%float && (zlen P =? 7) &&
      match single_point curve2 0.7%float, single_point (mkCurve (K := Binary64) (Some 2) (Some P) (Some kv) 3) 0.7%float with
      | Ok a, Ok b => near tol a b | _, _ => false end
  | _ => false end = true /\
  match insert_knot curve2 0.875%float with Err UnboundLocalError => true | _ => false end = true.
Proof. split; vm_compute; reflexivity. Qed.
(** test_curve_control_point_guard, test_curve_knot_vector_guard, 2, 55-84. *)
Example test_curve_guards :
  let P := [[0; 0; 0]; [1; 2; 0]; [2; 2; 0]; [3; 0; 0]]%float : list (list Binary64) in
  let U := NdArray (K := Binary64) [0; 0; 0; 0; 1; 1; 1; 1]%float : arraylike Binary64 in
  let c := curve_init (K := Binary64) None None in
  match set_control_points c P, set_knot_vector c U, set_knot_vector (curve_init (K := Binary64) (Some 3) None) U with
  | Err ValueError, Err ValueError, Err ValueError => true | _, _, _ => false end = true.
Proof. vm_compute; reflexivity. Qed.
(** surf2, 400-425 (and surf, 209-232). *)
Definition surf2 : surf Binary64 :=
  mkSurf (K := Binary64) 2 2 5 5
    (flat_map (fun x => map (fun y => [x; y; 0%float]) [0; 1; 2; 3; 4]%float) [0; 1; 2; 3; 4]%float)
    (match generate_uniform 2 5 with Ok l => l | _ => [] end) (match generate_uniform 2 5 with Ok l => l | _ => [] end).
Definition grid : list (list Binary64) := [[0; 0]; [0.25; 0.25]; [0.75; 0.75]; [0.5; 0.25]; [0.25; 0.5]; [1; 1]]%float.
Definition surf2_values : list (list Binary64) :=
  [[0; 0; 0]; [1.21875; 1.21875; 0]; [2.78125; 2.78125; 0]; [2; 1.21875; 0]; [1.21875; 2; 0]; [4; 4; 0]]%float.
(** test_surf_single_point, test_surf_points. *)
Example test_surf_points : okb (fun m => near2 tol m surf2_values) (surf_points surf2 (ND2 grid)) = true.
Proof. vm_compute; reflexivity. Qed.
(** test_surf_derivpt (row 0), test_surf_derivu1 (3), derivu2 (6), derivv1 (1), derivv2 (2), derivuv (4). *)
Definition surf2_ders : list (list (list Binary64)) :=
  [ surf2_values;
    [[0; 6; 0]; [0; 3.75; 0]; [0; 3.75; 0]; [0; 3.75; 0]; [0; 3; 0]; [0; 6; 0]];
    [[0; -9; 0]; [0; -9; 0]; [0; 9; 0]; [0; -9; 0]; [0; 0; 0]; [0; 9; 0]];
    [[6; 0; 0]; [3.75; 0; 0]; [3.75; 0; 0]; [3; 0; 0]; [3.75; 0; 0]; [6; 0; 0]];
    [[0; 0; 0]; [0; 0; 0]; [0; 0; 0]; [0; 0; 0]; [0; 0; 0]; [0; 0; 0]]]%float.
Definition surf2_uu : list (list Binary64) := [[-9; 0; 0]; [-9; 0; 0]; [9; 0; 0]; [0; 0; 0]; [-9; 0; 0]; [9; 0; 0]]%float.
Definition at_grid (k : nat) (want : list (list Binary64)) (all : list (res (list (list Binary64)))) : bool :=
  forallb (fun t => okb (fun m => near 0.001%float (nth k m []) (snd t)) (fst t)) (combine all want).
Example test_surf_derivatives :
  let all := map (fun r => surf_derivatives surf2 (nth 0 r (0 : Binary64)%num) (nth 1 r (0 : Binary64)%num) 2 2 false) grid in
  forallb (fun t => at_grid (fst t) (snd t) all) (combine [0; 1; 2; 3; 4]%nat surf2_ders) && at_grid 6 surf2_uu all = true.
Proof. vm_compute; reflexivity. Qed.

(** ** tests/test_parameterize.py *)
Definition curve1 : curve_obj Binary64 := mkCurve (K := Binary64) (Some 3)
  (Some [[0; 0; 0]; [1; 2; 0]; [2; 2; 0]; [3; 0; 0]]%float) (Some [0; 0; 0; 0; 1; 1; 1; 1]%float) 3.
Definition beh1 := beh_of_curve3 curve1.
(** test_initial_guess_curve, 33-39: equality, not closeness. *)
Example test_initial_guess_curve :
  (let u := (1 / 7 * 2)%float in
   match single_point curve1 u with
   | Ok q => match initial_guess_curve beh1 q with Ok v => (u =? v)%float | _ => false end
   | _ => false end) = true.
Proof. vm_compute; reflexivity. Qed.
(** test_curve_inversion, 42-56: atol 1e-2. *)
Example test_curve_inversion :
  forallb (fun u => match single_point curve1 u with
                    | Ok q => okb (fun v => isclose_tol (K := Binary64) lit_1em5 0.01%float u v) (curve_inversion beh1 q lit_1em5 lit_1em5 100)
                    | _ => false end) [0.25; 0.5; 0.75]%float = true.
Proof. vm_compute; reflexivity. Qed.
(** test_parameterize_curve, 59-67: atol 1e-3. *)
Definition tenths : list Binary64 := match np_linspace (K := Binary64) 0.1%float 0.9%float 10 with Ok l => l | _ => [] end.
Example test_parameterize_curve :
  okb (fun q => okb (fun m => near 0.001%float tenths (map (fun r => last r (0 : Binary64)%num) m))
                  (parameterize_curve beh1 (mkData (K := Binary64) 3 q)))
    (mapM (single_point curve1) tenths) = true.
Proof. vm_compute; reflexivity. Qed.
(** The sine surface, 70-97; [np.sin(np.linspace(0, 2 * np.pi, 25))] is given by
    its values to 17 digits. *)
Definition wave : surf Binary64 := mkSurf (K := Binary64) 2 2 5 5
  [[0; 0; 0.0]; [0; 1; 0.25881904510252074]; [0; 2; 0.49999999999999994]; [0; 3; 0.7071067811865475]; [0; 4; 0.8660254037844386];
   [1; 0; 0.9659258262890683]; [1; 1; 1.0]; [1; 2; 0.9659258262890683]; [1; 3; 0.8660254037844387]; [1; 4; 0.7071067811865476];
   [2; 0; 0.49999999999999994]; [2; 1; 0.258819045102521]; [2; 2; 1.2246467991473532e-16]; [2; 3; (-0.2588190451025208)]; [2; 4; (-0.4999999999999997)];
   [3; 0; (-0.7071067811865471)]; [3; 1; (-0.8660254037844384)]; [3; 2; (-0.9659258262890683)]; [3; 3; (-1.0)]; [3; 4; (-0.9659258262890684)];
   [4; 0; (-0.8660254037844386)]; [4; 1; (-0.7071067811865477)]; [4; 2; (-0.5000000000000004)]; [4; 3; (-0.25881904510252157)]; [4; 4; (-2.4492935982947064e-16)]]%float
  (s_ku surf2) (s_kv surf2).
(** test_initial_guess_surf, 100-109. *)
Example test_initial_guess_surf :
  (let u := (1 / 9 * 2)%float in let v := (1 / 9 * 3)%float in
   match surf_point wave u v with
   | Ok q => okb (fun g => near tol [u; v] [fst g; snd g]) (initial_guess_surf (beh_of_surf wave) q)
   | _ => false end) = true.
Proof. vm_compute; reflexivity. Qed.
(** test_surf_inversion, 112-127. *)
Definition wave_inversion (w : Binary64) : bool :=
  match surf_point wave w w with
  | Ok q => okb (fun g => near tol [fst g; snd g] [w; w]) (surface_inversion (beh_of_surf wave) q lit_1em5 lit_1em5 100)
  | _ => false end.
Example test_surf_inversion : map wave_inversion [0.25; 0.5; 0.75]%float = [true; true; true].
Proof. vm_compute; reflexivity. Qed.

(** ** tests/test_data.py *)
(** The tests use [data.Boundary] and [data.Interior]; there is no module
    [data].  The same assignments on the problem classes, 17-61; on the class
    [Boundary] the third one raises TypeError (C69). *)
Example test_data :
  let b := bp_run (K := Binary64) working_class (mkSolver (K := Binary64) (fun _ => Err LinAlgError) (fun _ _ _ => Err LinAlgError)) bp_new
    [BDegree (VInt 3); BStart (Ok (Nd1 (K := Binary64) [0; 0; 0]%float)); BEnd (Ok (Nd1 (K := Binary64) [1; 0; 0]%float)); BNum (VInt 5)] in
  let p := fst (ip_set_num (K := Binary64) (fst (ip_set_degree ip_new (VInt 3))) (VInt 5)) in
  (bp_degree b, bp_start b, bp_end b, bp_num b) = (Some 3, Some [0; 0; 0]%float, Some [1; 0; 0]%float, Some 5) /\
  (ip_degree p, ip_num p) = (Some 3, Some 5) /\
  snd (do_set_start (do_new true None) (SArray (Nd1 (K := Binary64) [0; 0; 0]%float))) = Err TypeError.
Proof. repeat split; vm_compute; reflexivity. Qed.
