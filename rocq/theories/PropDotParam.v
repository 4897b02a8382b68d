(** C124: point inversion and parameterization when the order of the additions in
    the dot products and norms of numpy, and the 2x2 solve, are left open. *)
From Coq Require Import Reals Lra Lia ZArith List Floats Permutation Sorted.
From Verif Require Import Py PyLemmas Num ModelKnots ModelBasis ModelCurve ModelSurface ModelParam ModelDot ModelDotParam Spec SpecB64 SpecDot SpecDotParam
  ProofB64Param ProofB64Sort ProofDot4 ProofDotParam ProofDotParam2 ProofDotParam3 ProofDotParam4 PropB64 PropParam PropB64Param.
Import ListNotations.
Open Scope R_scope.

(** From left to right, and with the inverse by LU, this is the model of C44-C50 and
    C84-C86. *)
Theorem C124_left_to_right : forall (K : Num) (c : curve_beh K) (s : surf_beh K) P e1 e2 mi d,
  initial_guess_curve_dot (fun _ => vdot) c P = initial_guess_curve c P /\
  curve_inversion_dot (fun _ => vdot) c P e1 e2 mi = curve_inversion c P e1 e2 mi /\
  parameterize_curve_dot (fun _ => vdot) c d = parameterize_curve c d /\
  initial_guess_surf_dot (fun _ => vdot) s P = initial_guess_surf s P /\
  surface_inversion_dot (fun _ => vdot) solve_lu s P e1 e2 mi = surface_inversion s P e1 e2 mi /\
  parameterize_surface_dot (fun _ => vdot) solve_lu s d = parameterize_surface s d.
Proof. exact left_to_right. Qed.
Print Assumptions C124_left_to_right.
Theorem C124_left_objects : forall (K : Num) (c : curve_obj K) (s : surf K) u v,
  let cd := beh_of_curve_dot (fun _ _ => vdot) (fun _ _ => vdot) c in
  let sd := beh_of_surf_dot (fun _ _ _ => vdot) (fun _ _ _ => vdot) s in
  cb_count cd = cb_count (beh_of_curve3 c) /\ cb_point cd u = cb_point (beh_of_curve3 c) u /\ cb_ders cd u = cb_ders (beh_of_curve3 c) u /\
  sb_nu sd = sb_nu (beh_of_surf s) /\ sb_nv sd = sb_nv (beh_of_surf s) /\
  sb_point sd u v = sb_point (beh_of_surf s) u v /\ sb_ders sd u v = sb_ders (beh_of_surf s) u v.
Proof. exact left_objects. Qed.
Print Assumptions C124_left_objects.
(** The three ways of C117_orders to add keep NaN. *)
Theorem C124_nan_orders : nan_dots64 (fun _ => vdot (K := Binary64)) /\ nan_dots64 dot_reversed /\ nan_dots64 dot_fused.
Proof. exact (conj nan_left (conj nan_reversed nan_fused)). Qed.
Print Assumptions C124_nan_orders.

(** ** Rounds: for arithmetic of any kind *)
Theorem C124_steps_curve : forall (K : Num) (dot : list Z -> list K -> list K -> K) (c : curve_beh K) P e1 e2 mi fuel,
  (0 <= mi)%Z -> (mi + 2 <= Z.of_nat fuel)%Z ->
  curve_inversion_fuel_dot dot fuel c P e1 e2 mi = curve_inversion_dot dot c P e1 e2 mi /\
  ((forall u, cb_point c u <> Diverge) -> (forall u, cb_ders c u <> Diverge) -> curve_inversion_dot dot c P e1 e2 mi <> Diverge).
Proof. exact @curve_steps_dot. Qed.
Print Assumptions C124_steps_curve.
Theorem C124_steps_surface : forall (K : Num) (dot : list Z -> list K -> list K -> K) (solve : K -> K -> K -> K -> K -> K -> res (K * K)),
  (forall a b c d x y, solve a b c d x y <> Diverge) -> forall (s : surf_beh K) P e1 e2 mi fuel,
  (0 <= mi)%Z -> (mi + 1 <= Z.of_nat fuel)%Z ->
  surface_inversion_fuel_dot dot solve fuel s P e1 e2 mi = surface_inversion_dot dot solve s P e1 e2 mi /\
  ((forall u v, sb_point s u v <> Diverge) -> (forall u v, sb_ders s u v <> Diverge) -> surface_inversion_dot dot solve s P e1 e2 mi <> Diverge).
Proof. exact @surf_steps_dot. Qed.
Print Assumptions C124_steps_surface.
(** With sums from right to left and tolerances never met, six rounds are needed and
    enough for a limit of 5 on a surface, seven on a curve. *)
Example C124_steps_example :
  curve_inversion_fuel_dot (K := Binary64) dot_reversed 6 (beh_of_curve3 bowl) [0.25; 1; 0]%float (-1)%float (-1)%float 5 = Diverge /\
  match curve_inversion_fuel_dot (K := Binary64) dot_reversed 7 (beh_of_curve3 bowl) [0.25; 1; 0]%float (-1)%float (-1)%float 5 with Ok _ => true | _ => false end = true /\
  surface_inversion_fuel_dot (K := Binary64) dot_reversed solve_lu 5 (beh_of_surf saddle) [0.25; 0.375; 1]%float (-1)%float (-1)%float 5 = Diverge /\
  match surface_inversion_fuel_dot (K := Binary64) dot_reversed solve_lu 6 (beh_of_surf saddle) [0.25; 0.375; 1]%float (-1)%float (-1)%float 5 with Ok _ => true | _ => false end = true.
Proof. split; [|split; [|split]]; vm_compute; reflexivity. Qed.

(** ** First guesses *)
Theorem C124_guess : forall dot, dots64 dot -> forall n, (1 <= n)%Z -> (2 * n - 1 <= 2 ^ 49)%Z -> exists t : Z -> PrimFloat.float, spread64 (2 * n - 1) t /\
  forall (c : curve_beh Binary64) (P : list PrimFloat.float) (q : Z -> list PrimFloat.float),
  cb_count c = n -> INR (length P) <= 1000 -> within (- 2 ^ 399) (2 ^ 399) P ->
  (forall i, (0 <= i < 2 * n)%Z -> cb_point c (t i : Binary64) = Ok (q i : list Binary64) /\ length (q i) = length P /\
     within (- 2 ^ 399) (2 ^ 399) (q i)) ->
  exists k, (0 <= k < 2 * n)%Z /\ initial_guess_curve_dot (K := Binary64) dot c (P : list Binary64) = Ok (t k : Binary64) /\
    ((exists i, (0 <= i < 2 * n)%Z /\ distR (values P) (values (q i)) <= 999999) ->
     forall i, (0 <= i < 2 * n)%Z -> distR (values P) (values (q k)) <=
       (1 + 3 * ((2 * INR (length P) + 6) * ulp64)) * distR (values P) (values (q i)) + / 2 ^ 518) /\
    ((forall i, (0 <= i < 2 * n)%Z -> 1000001 <= distR (values P) (values (q i))) -> k = 0%Z).
Proof. exact guess_spread_dot. Qed.
Print Assumptions C124_guess.
Theorem C124_guess_surface : forall dot, dots64 dot -> forall nu nv, (1 <= nu)%Z -> (2 * nu - 1 <= 2 ^ 49)%Z -> (1 <= nv)%Z -> (2 * nv - 1 <= 2 ^ 49)%Z ->
  exists s t : Z -> PrimFloat.float, spread64 (2 * nu - 1) s /\ spread64 (2 * nv - 1) t /\
  forall (f : surf_beh Binary64) (P : list PrimFloat.float) (q : Z -> Z -> list PrimFloat.float),
  sb_nu f = nu -> sb_nv f = nv -> INR (length P) <= 1000 -> within (- 2 ^ 399) (2 ^ 399) P ->
  (forall i j, (0 <= i < 2 * nu)%Z -> (0 <= j < 2 * nv)%Z ->
     sb_point f (s i : Binary64) (t j : Binary64) = Ok (q i j : list Binary64) /\ length (q i j) = length P /\
     within (- 2 ^ 399) (2 ^ 399) (q i j)) ->
  exists k l, (0 <= k < 2 * nu)%Z /\ (0 <= l < 2 * nv)%Z /\
    initial_guess_surf_dot (K := Binary64) dot f (P : list Binary64) = Ok (s k : Binary64, t l : Binary64) /\
    ((exists i j, (0 <= i < 2 * nu)%Z /\ (0 <= j < 2 * nv)%Z /\ distR (values P) (values (q i j)) <= 999999) ->
     forall i j, (0 <= i < 2 * nu)%Z -> (0 <= j < 2 * nv)%Z -> distR (values P) (values (q k l)) <=
       (1 + 3 * ((2 * INR (length P) + 6) * ulp64)) * distR (values P) (values (q i j)) + / 2 ^ 518) /\
    ((forall i j, (0 <= i < 2 * nu)%Z -> (0 <= j < 2 * nv)%Z -> 1000001 <= distR (values P) (values (q i j))) -> k = 0%Z /\ l = 0%Z).
Proof. exact guess_spread_surf_dot. Qed.
Print Assumptions C124_guess_surface.
(** [seg64] and [plane64] meet the hypotheses (C84_example and C85_example). *)
Example C124_guess_example : dots64 dot_fused /\
  initial_guess_curve_dot (K := Binary64) dot_fused seg64 [0.25; 1; 0]%float = Ok (0x1.999999999999ap-3%float : Binary64) /\
  initial_guess_surf_dot (K := Binary64) dot_fused plane64 [0.25; 1; 0]%float = Ok (0x1.999999999999ap-3%float : Binary64, 1%float : Binary64).
Proof. split; [exact dots_fused|]; split; vm_compute; reflexivity. Qed.
(** The first guess does depend on the order. *)
Theorem C124_order_refuted : exists (c : curve_beh Binary64) (P : list PrimFloat.float),
  initial_guess_curve_dot (K := Binary64) (fun _ => vdot (K := Binary64)) c P = Ok (0%float : Binary64) /\
  initial_guess_curve_dot (K := Binary64) dot_reversed c P = Ok (1%float : Binary64).
Proof.
  exists (mkBeh (K := Binary64) 1 (fun x => Ok (if (x =? 0)%float then [0x1.804189374bc6ap+0; 0x1.cp-27; 0x1.cp-27]%float else [0; 0; 0x1.804189374bc6ap+0]%float)) (fun _ => Diverge)), [0; 0; 0]%float.
  split; vm_compute; reflexivity.
Qed.
Print Assumptions C124_order_refuted.
(** Curves and surfaces of the library with uniform knots, their points too computed
    with dot products of any kind, which may differ from parameter to parameter. *)
Theorem C124_uniform : forall dot (pd dd : Binary64 -> list Z -> list Binary64 -> list Binary64 -> Binary64), dots64 dot -> (forall x, dots64 (pd x)) ->
  forall p P d Q M, (1 <= p)%nat -> INR p <= 2 ^ 40 -> (Z.of_nat p + 1 <= len P)%Z -> (len P - Z.of_nat p <= 490000)%Z -> (len P <= 2 ^ 48)%Z ->
  Forall (fun row => length row = 3%nat /\ within (- M) M row) P -> 0 <= M <= 2 ^ 390 ->
  length Q = 3%nat -> within (- 2 ^ 399) (2 ^ 399) Q ->
  exists (U : list PrimFloat.float) (t : Z -> PrimFloat.float), generate_uniform (Z.of_nat p) (len P) = Ok (U : list Binary64) /\
  spread64 (2 * len P - 1) t /\
  let c := mkCurve (K := Binary64) (Some (Z.of_nat p)) (Some P) (Some U) d in
  exists k : Z, (0 <= k < 2 * len P)%Z /\ initial_guess_curve_dot (K := Binary64) dot (beh_of_curve_dot pd dd c) (Q : list Binary64) = Ok (t k : Binary64) /\
    let D i := distR (values Q) (curve_xyz (values U) p (map values P) (value (t i))) in
    let E := 30 * INR (S p) * (ulp64 * M + tiny64) in
    ((exists i, (0 <= i < 2 * len P)%Z /\ D i + E <= 999999) ->
     forall i, (0 <= i < 2 * len P)%Z -> D k <= (1 + 36 * ulp64) * D i + 3 * E + / 2 ^ 518) /\
    ((forall i, (0 <= i < 2 * len P)%Z -> 1000001 + E <= D i) -> k = 0%Z).
Proof. exact (fun dot pd dd H PD p P d Q M => library_guess_dot dot H pd dd p P d Q M PD). Qed.
Print Assumptions C124_uniform.
Theorem C124_uniform_surface : forall dot (pd dd : Binary64 -> Binary64 -> list Z -> list Binary64 -> list Binary64 -> Binary64), dots64 dot -> (forall x y, dots64 (pd x y)) ->
  forall p q nu nv P Q M, (1 <= p)%nat -> INR p <= 2 ^ 40 -> (1 <= q)%nat -> INR q <= 2 ^ 40 ->
  (p + 1 <= nu)%nat -> (Z.of_nat nu - Z.of_nat p <= 490000)%Z -> (Z.of_nat nu <= 2 ^ 48)%Z ->
  (q + 1 <= nv)%nat -> (Z.of_nat nv - Z.of_nat q <= 490000)%Z -> (Z.of_nat nv <= 2 ^ 48)%Z ->
  length P = (nu * nv)%nat -> Forall (fun row => length row = 3%nat /\ within (- M) M row) P -> 0 <= M <= 2 ^ 390 ->
  length Q = 3%nat -> within (- 2 ^ 399) (2 ^ 399) Q ->
  exists (U V : list PrimFloat.float) (s t : Z -> PrimFloat.float),
  generate_uniform (Z.of_nat p) (Z.of_nat nu) = Ok (U : list Binary64) /\
  generate_uniform (Z.of_nat q) (Z.of_nat nv) = Ok (V : list Binary64) /\
  spread64 (2 * Z.of_nat nu - 1) s /\ spread64 (2 * Z.of_nat nv - 1) t /\
  exists k l : Z, (0 <= k < 2 * Z.of_nat nu)%Z /\ (0 <= l < 2 * Z.of_nat nv)%Z /\
    initial_guess_surf_dot (K := Binary64) dot (beh_of_surf_dot pd dd (mkSurf (K := Binary64) (Z.of_nat p) (Z.of_nat q) (Z.of_nat nu) (Z.of_nat nv) P U V)) (Q : list Binary64)
      = Ok (s k : Binary64, t l : Binary64) /\
    let D i j := distR (values Q) (surface_xyz (values U) (values V) p q nu nv (map values P) (value (s i)) (value (t j))) in
    let E := 33 * INR (p + q + 1) * (ulp64 * M + tiny64) in
    ((exists i j, (0 <= i < 2 * Z.of_nat nu)%Z /\ (0 <= j < 2 * Z.of_nat nv)%Z /\ D i j + E <= 999999) ->
     forall i j, (0 <= i < 2 * Z.of_nat nu)%Z -> (0 <= j < 2 * Z.of_nat nv)%Z ->
       D k l <= (1 + 36 * ulp64) * D i j + 3 * E + / 2 ^ 518) /\
    ((forall i j, (0 <= i < 2 * Z.of_nat nu)%Z -> (0 <= j < 2 * Z.of_nat nv)%Z -> 1000001 + E <= D i j) -> k = 0%Z /\ l = 0%Z).
Proof. exact (fun dot pd dd H PD p q nu nv P Q M => library_guess_surf_dot dot H pd dd p q nu nv P Q M PD). Qed.
Print Assumptions C124_uniform_surface.
(** C84_uniform_example and C85_uniform_example meet the other hypotheses. *)
Example C124_uniform_example : dots64 dot_fused /\ (forall x : Binary64, dots64 (if (x <? 0.5)%float then dot_reversed else dot_fused)) /\
  initial_guess_curve_dot (K := Binary64) dot_fused (beh_of_curve_dot (K := Binary64) (fun x => if (x <? 0.5)%float then dot_reversed else dot_fused) (fun _ => dot_fused) bowl) [0.5625; 1; 0]%float
    = aget (samples (K := Binary64) 6) 3 /\
  initial_guess_surf_dot (K := Binary64) dot_fused (beh_of_surf_dot (K := Binary64) (fun _ _ => dot_reversed) (fun _ _ => dot_fused) saddle) [0.25; 0.375; 1]%float
    = initial_guess_surf (beh_of_surf saddle) [0.25; 0.375; 1]%float.
Proof.
  split; [exact dots_fused|]; split; [intros x; destruct (x <? 0.5)%float; [exact dots_reversed|exact dots_fused]|].
  split; vm_compute; reflexivity.
Qed.

(** ** Returned parameters: the dot products need not be accurate at all *)
Theorem C124_range_curve : forall dot (c : curve_beh Binary64) P e1 e2 mi u, (2 * cb_count c - 1 <= 2 ^ 49)%Z ->
  curve_inversion_dot (K := Binary64) dot c P e1 e2 mi = Ok u -> (~ number64 u \/ unit64 u) /\ exists m, cb_ders c u = Ok m.
Proof. exact curve_range64_dot. Qed.
Print Assumptions C124_range_curve.
Theorem C124_range_surface : forall dot solve (s : surf_beh Binary64) P e1 e2 mi u v, (2 * sb_nu s - 1 <= 2 ^ 49)%Z -> (2 * sb_nv s - 1 <= 2 ^ 49)%Z ->
  surface_inversion_dot (K := Binary64) dot solve s P e1 e2 mi = Ok (u, v) ->
  ((~ number64 u \/ unit64 u) /\ (~ number64 v \/ unit64 v)) /\
  (nan_dots64 dot -> (forall u v q, sb_point s u v = Ok q -> number64 u /\ number64 v) ->
   (forall u v m, sb_ders s u v = Ok m -> Forall (fun r => length r = 3%nat) m) -> unit64 u /\ unit64 v).
Proof. exact surf_range64_dot. Qed.
Print Assumptions C124_range_surface.
(** The library's own objects refuse NaN, so it never comes back. *)
Theorem C124_library_curve : forall dot pd dd (c : curve_obj Binary64) P e1 e2 mi u,
  curve_inversion_dot (K := Binary64) dot (beh_of_curve_dot pd dd c) P e1 e2 mi = Ok u -> unit64 u.
Proof. exact library_curve_range_dot. Qed.
Print Assumptions C124_library_curve.
Theorem C124_library_surface : forall dot solve pd dd (s : surf Binary64) P e1 e2 mi u v, nan_dots64 dot ->
  (2 * s_nu s - 1 <= 2 ^ 49)%Z -> (2 * s_nv s - 1 <= 2 ^ 49)%Z ->
  surface_inversion_dot (K := Binary64) dot solve (beh_of_surf_dot pd dd s) P e1 e2 mi = Ok (u, v) -> unit64 u /\ unit64 v.
Proof. exact library_surface_range_dot. Qed.
Print Assumptions C124_library_surface.
(** Without the hypothesis on NaN the last step of a surface may return it: here the
    step has NaN as its length along u, and the dot product ignores it. *)
Theorem C124_nan_refuted : exists dot solve (v : PrimFloat.float),
  surface_inversion_dot (K := Binary64) dot solve (beh_of_surf saddle) [0.25; 0.375; 1]%float lit_1em5 lit_1em5 100 = Ok (nan : Binary64, v : Binary64).
Proof.
  exists (fun site _ _ => match site with [0%Z; 13%Z] => 0%float | _ => 1%float end), (fun _ _ _ _ _ _ => Ok (nan : Binary64, 0%float : Binary64)), 0%float.
  vm_compute; reflexivity.
Qed.
Print Assumptions C124_nan_refuted.
Example C124_range_example : exists u v w : Binary64,
  curve_inversion_dot (K := Binary64) dot_fused (beh_of_curve_dot (K := Binary64) (fun _ => dot_fused) (fun _ => dot_reversed) bowl) [0.25; 1; 0]%float lit_1em5 lit_1em5 100 = Ok u /\
  surface_inversion_dot (K := Binary64) dot_fused solve_lu (beh_of_surf_dot (K := Binary64) (fun _ _ => dot_fused) (fun _ _ => dot_reversed) saddle) [0.25; 0.375; 1]%float lit_1em5 lit_1em5 100 = Ok (v, w) /\
  (2 * s_nu saddle - 1 <= 2 ^ 49)%Z /\ (2 * s_nv saddle - 1 <= 2 ^ 49)%Z /\ nan_dots64 dot_fused.
Proof.
  exists (match curve_inversion_dot (K := Binary64) dot_fused (beh_of_curve_dot (K := Binary64) (fun _ => dot_fused) (fun _ => dot_reversed) bowl) [0.25; 1; 0]%float lit_1em5 lit_1em5 100 with Ok u => u | _ => nan end),
    (match surface_inversion_dot (K := Binary64) dot_fused solve_lu (beh_of_surf_dot (K := Binary64) (fun _ _ => dot_fused) (fun _ _ => dot_reversed) saddle) [0.25; 0.375; 1]%float lit_1em5 lit_1em5 100 with Ok (u, _) => u | _ => nan end),
    (match surface_inversion_dot (K := Binary64) dot_fused solve_lu (beh_of_surf_dot (K := Binary64) (fun _ _ => dot_fused) (fun _ _ => dot_reversed) saddle) [0.25; 0.375; 1]%float lit_1em5 lit_1em5 100 with Ok (_, v) => v | _ => nan end).
  split; [vm_compute; reflexivity|]; split; [vm_compute; reflexivity|]; split; [vm_compute; discriminate|]; split; [vm_compute; discriminate|exact nan_fused].
Qed.
Theorem C124_sorted_curve : forall dot (c : curve_beh Binary64) (rows out : list (list PrimFloat.float)), Forall (fun r => length r = 3%nat /\ Forall finite64 r) rows ->
  (forall u m, cb_ders c u = Ok m -> unit64 u) ->
  parameterize_curve_dot (K := Binary64) dot c (mkData 3 (rows : list (list Binary64))) = Ok (out : list (list Binary64)) ->
  exists us : list PrimFloat.float,
    Forall2 (fun (r : list PrimFloat.float) (u : PrimFloat.float) => curve_inversion_dot (K := Binary64) dot c (r : list Binary64) lit_1em5 lit_1em5 100 = Ok (u : Binary64) /\ unit64 u) rows us /\
    Permutation out (map (fun t => fst t ++ [snd t]) (combine rows us)) /\
    StronglySorted (fun a b => lex_le [3%nat; 0%nat; 1%nat; 2%nat] (values a) (values b)) out.
Proof. exact curve_sorted64_dot. Qed.
Print Assumptions C124_sorted_curve.
Theorem C124_sorted_surface : forall dot solve (s : surf_beh Binary64) (rows out : list (list PrimFloat.float)), nan_dots64 dot ->
  (2 * sb_nu s - 1 <= 2 ^ 49)%Z -> (2 * sb_nv s - 1 <= 2 ^ 49)%Z ->
  Forall (fun r => length r = 3%nat /\ Forall finite64 r) rows ->
  (forall u v q, sb_point s u v = Ok q -> number64 u /\ number64 v) ->
  (forall u v m, sb_ders s u v = Ok m -> Forall (fun r => length r = 3%nat) m) ->
  parameterize_surface_dot (K := Binary64) dot solve s (mkData 3 (rows : list (list Binary64))) = Ok (out : list (list Binary64)) ->
  exists uvs : list (PrimFloat.float * PrimFloat.float),
    Forall2 (fun (r : list PrimFloat.float) (uv : PrimFloat.float * PrimFloat.float) =>
      surface_inversion_dot (K := Binary64) dot solve s (r : list Binary64) lit_1em5 lit_1em5 100 = Ok (uv : Binary64 * Binary64) /\ unit64 (fst uv) /\ unit64 (snd uv)) rows uvs /\
    Permutation out (map (fun t => fst t ++ [fst (snd t); snd (snd t)]) (combine rows uvs)) /\
    StronglySorted (fun a b => lex_le [3%nat; 4%nat; 0%nat; 1%nat; 2%nat] (values a) (values b)) out.
Proof. exact surface_sorted64_dot. Qed.
Print Assumptions C124_sorted_surface.
(** Fused multiply-adds everywhere. *)
Definition bowl_fused : curve_beh Binary64 := beh_of_curve_dot (K := Binary64) (fun _ => dot_fused) (fun _ => dot_fused) bowl.
Definition saddle_fused : surf_beh Binary64 := beh_of_surf_dot (K := Binary64) (fun _ _ => dot_fused) (fun _ _ => dot_fused) saddle.
Example C124_sorted_example :
  match parameterize_curve_dot (K := Binary64) dot_fused bowl_fused (mkData (K := Binary64) 3 [[1; 0; 0]; [0.5; 1; 1]; [0; 0; 0]]%float) with
  | Ok [[x0; y0; z0; u0]; [x1; y1; z1; u1]; [x2; y2; z2; u2]] =>
      ((x0 =? 0) && (u0 =? 0) && (x1 =? 0.5) && (z1 =? 1) && (0 <? u1) && (u1 <? u2) && (x2 =? 1))%float
  | _ => false end = true /\
  match parameterize_surface_dot (K := Binary64) dot_fused solve_lu saddle_fused (mkData (K := Binary64) 3 [[0.75; 0.5; 0.5]; [0.25; 0.375; 1]]%float) with
  | Ok [[x0; y0; z0; u0; v0]; [x1; y1; z1; u1; v1]] => ((x0 =? 0.25) && (0 <=? u0) && (u0 <? u1) && (u1 <=? 1) && (x1 =? 0.75))%float
  | _ => false end = true /\
  (forall u m, cb_ders bowl_fused u = Ok m -> unit64 u) /\
  (forall u v q, sb_point saddle_fused u v = Ok q -> number64 u /\ number64 v) /\
  (forall u v m, sb_ders saddle_fused u v = Ok m -> Forall (fun r => length r = 3%nat) m) /\
  nan_dots64 dot_fused /\ (2 * sb_nu saddle_fused - 1 <= 2 ^ 49)%Z /\ (2 * sb_nv saddle_fused - 1 <= 2 ^ 49)%Z.
Proof.
  split; [vm_compute; reflexivity|]; split; [vm_compute; reflexivity|].
  split; [intros u m; apply curve_unit64_dot|]; split; [intros u v q; apply surf_unit64_dot|]; split; [intros u v m; apply surf_ders_width_dot|].
  split; [exact nan_fused|]; split; vm_compute; discriminate.
Qed.
