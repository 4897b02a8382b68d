(** C44-C50: projecting points on curves and surfaces (parameterisation). *)
From Coq Require Import Floats Permutation Sorted.
From Verif Require Import Py Num ModelKnots ModelCurve ModelSurface ModelParam Spec SpecParam ProofParam ProofParam2 ProofParam3 ProofParam4.
Open Scope R_scope.

(** ** C44: the initial guess is the first closest sample *)
Theorem C44_initial_guess : forall (c : curve_beh Exact) P q n, cb_count c = n -> (1 <= n)%Z ->
  (forall i, (0 <= i < 2 * n)%Z -> cb_point c (Fin (IZR i / IZR (2 * n - 1))) = Ok (fin (q i)) /\ length (q i) = length P) ->
  exists k, (0 <= k < 2 * n)%Z /\ initial_guess_curve c (fin P) = Ok (Fin (IZR k / IZR (2 * n - 1)) : Exact) /\
    ((exists i, (0 <= i < 2 * n)%Z /\ distR P (q i) < 1000000) ->
       (forall i, (0 <= i < 2 * n)%Z -> distR P (q k) <= distR P (q i)) /\
       (forall i, (0 <= i < k)%Z -> distR P (q k) < distR P (q i))) /\
    ((forall i, (0 <= i < 2 * n)%Z -> 1000000 <= distR P (q i)) -> k = 0%Z).
Proof. exact initial_guess_spec. Qed.
Print Assumptions C44_initial_guess.
(** A curve without control points. *)
Theorem C44_empty : forall (K : Num) (c : curve_beh K) P, (cb_count c <= 0)%Z -> initial_guess_curve c P = Err IndexError.
Proof. exact initial_guess_empty. Qed.
Print Assumptions C44_empty.
(** A parabola, samples k/5: (0.5, 1, 0) is equally close to samples 2 and 3. *)
Definition bowl : curve_obj Binary64 :=
  mkCurve (K := Binary64) (Some 2%Z) (Some [[0; 0; 0]; [0.5; 2; 0]; [1; 0; 0]]%float) (Some [0; 0; 0; 1; 1; 1]%float) 3.
Example C44_example : initial_guess_curve (beh_of_curve3 bowl) [0.5; 1; 0]%float = aget (samples 6) 2 /\
  initial_guess_curve (beh_of_curve3 bowl) [0.5625; 1; 0]%float = aget (samples 6) 3 /\
  initial_guess_curve (beh_of_curve3 bowl) [2000000; 1; 0]%float = Ok (0%float : Binary64).
Proof. split; [vm_compute; reflexivity|split; vm_compute; reflexivity]. Qed.
(** A behaviour meeting the hypotheses. *)
Definition line_beh (n : Z) : curve_beh Exact :=
  mkBeh (K := Exact) n (fun u => Ok [u; Fin 0; Fin 0]) (fun u => Ok [[u; Fin 0; Fin 0]; [Fin 1; Fin 0; Fin 0]; [Fin 0; Fin 0; Fin 0]]).
Example C44_hypotheses : forall i, (0 <= i < 6)%Z ->
  cb_point (line_beh 3) (Fin (IZR i / IZR (2 * 3 - 1))) = Ok (fin [IZR i / 5; 0; 0]) /\ length [IZR i / 5; 0; 0] = length [1; 2; 3].
Proof. intros i Hi; split; reflexivity. Qed.
(** In doubles the last sample need not be the end of the curve: with 25 control
    points u = 1 is never tried. *)
Example C44_last_sample_refuted : existsb (fun x => PrimFloat.eqb x 1%float) (samples (K := Binary64) (2 * 25)) = false /\
  aget (samples (K := Binary64) (2 * 25)) 49 = Ok 0.99999999999999988897769753748434595763683319091796875%float.
Proof. split; vm_compute; reflexivity. Qed.

(** ** C45: termination and range *)
(** More rounds than [max_iter + 2] never change the result, and the loop ends. *)
Theorem C45_steps : forall (K : Num) (c : curve_beh K) P e1 e2 mi fuel, (0 <= mi)%Z -> (mi + 2 <= Z.of_nat fuel)%Z ->
  curve_inversion_fuel fuel c P e1 e2 mi = curve_inversion c P e1 e2 mi /\
  ((forall u, cb_point c u <> Diverge) -> (forall u, cb_ders c u <> Diverge) -> curve_inversion c P e1 e2 mi <> Diverge).
Proof. exact curve_steps. Qed.
Print Assumptions C45_steps.
(** The bound is reached (with unattainable tolerances). *)
Example C45_sharp : curve_inversion_fuel 6 (beh_of_curve3 bowl) [0.5; 3; 0]%float (-1)%float (-1)%float 5 = Diverge /\
  (match curve_inversion_fuel 7 (beh_of_curve3 bowl) [0.5; 3; 0]%float (-1)%float (-1)%float 5 with Ok _ => true | _ => false end) = true.
Proof. split; vm_compute; reflexivity. Qed.
Theorem C45_range : forall (c : curve_beh Exact) P e1 e2 mi u, curve_inversion c P e1 e2 mi = Ok u ->
  (u = NaN \/ exists r, u = Fin r /\ 0 <= r <= 1) /\ (exists m, cb_ders c u = Ok m).
Proof. intros c P e1 e2 mi u H; split; [exact (curve_result_range _ _ _ _ _ _ H)|exact (curve_result_evaluated _ _ _ _ _ _ _ H)]. Qed.
Print Assumptions C45_range.
(** So a curve that refuses parameters outside [0,1] yields one inside. *)
Theorem C45_range_checked : forall (c : curve_beh Exact) P e1 e2 mi u,
  (forall u m, cb_ders c u = Ok m -> unit_fin u) -> curve_inversion c P e1 e2 mi = Ok u -> unit_fin u.
Proof. intros c P e1 e2 mi u HC H; destruct (curve_result_evaluated _ _ _ _ _ _ _ H) as (m & E); exact (HC _ _ E). Qed.
Print Assumptions C45_range_checked.
Example C45_example : exists u : Binary64, curve_inversion (beh_of_curve3 bowl) [0.25; 1; 0]%float lit_1em5 lit_1em5 100 = Ok u /\
  (0 <=? u)%float = true /\ (u <=? 1)%float = true.
Proof. eexists; split; [vm_compute; reflexivity|split; vm_compute; reflexivity]. Qed.
(** A NaN can come back if the object accepts it. *)
Example C45_nan : curve_inversion (K := Binary64) (mkBeh (K := Binary64) 1 (fun _ => Ok [1%float]) (fun _ => Ok [[1]; [0]; [0]]%float))
  [0%float] lit_1em5 lit_1em5 0 = Ok nan.
Proof. vm_compute; reflexivity. Qed.

(** ** C46: what a returned parameter satisfies *)
(** Either the initial guess was accepted, or one further Newton step from the
    returned parameter is accepted (it is not returned), or the rounds ran out. *)
Theorem C46_exit : forall (K : Num) (c : curve_beh K) P e1 e2 mi u, (0 <= mi)%Z -> curve_inversion c P e1 e2 mi = Ok u ->
  (initial_guess_curve c P = Ok u /\ curve_accepts c P e1 e2 u) \/
  (exists pt d1 d2 u', curve_rows c u = Ok (pt, d1, d2) /\ curve_newton u pt d1 d2 P = Ok u' /\
     ((vnorm (map (fun i => (i * (u' - u))%num) d1) <=? e1)%num = true \/ curve_accepts c P e1 e2 u')) \/
  curve_inversion_fuel (Z.to_nat (mi + 1)) c P e1 e2 mi = Diverge.
Proof. exact curve_exit. Qed.
Print Assumptions C46_exit.
(** On a straight line Newton's step is exact, and the result is always the
    initial sample, however far away the point's projection. *)
Theorem C46_line_refuted : forall (c : curve_beh Exact) A B P e1 e2 mi, acts_as_line c A B -> (1 <= cb_count c)%Z ->
  length A = 3%nat -> length B = 3%nat -> length P = 3%nat ->
  0 < dotR (subR B A) (subR B A) -> 0 <= dotR (subR P A) (subR B A) <= dotR (subR B A) (subR B A) ->
  0 <= e1 -> 0 <= e2 ->
  curve_inversion c (fin P) (Fin e1 : Exact) (Fin e2 : Exact) mi = initial_guess_curve c (fin P).
Proof. exact line_returns_guess. Qed.
Print Assumptions C46_line_refuted.
Example C46_line_hypotheses : acts_as_line (line_beh 3) [0; 0; 0] [1; 0; 0] /\
  0 < dotR (subR [1; 0; 0] [0; 0; 0]) (subR [1; 0; 0] [0; 0; 0]) /\
  0 <= dotR (subR [3/10; 0; 0] [0; 0; 0]) (subR [1; 0; 0] [0; 0; 0]) <= dotR (subR [1; 0; 0] [0; 0; 0]) (subR [1; 0; 0] [0; 0; 0]).
Proof.
  split; [|split; [|split]]; unfold dotR, subR; cbn; try lra.
  intros u Hu; unfold lerp, subR; cbn; split; [repeat f_equal; lra|exists []].
  unfold fin2, fin; cbn; repeat f_equal; lra.
Qed.
(** In doubles: on a straight curve of degree 2 the point at u = 0.3125 is given
    the parameter 0.4, rejected by both tests, while 0.3125 passes them. *)
Definition rod : curve_obj Binary64 :=
  mkCurve (K := Binary64) (Some 2%Z) (Some [[0; 0; 0]; [0.5; 0; 0]; [1; 0; 0]]%float) (Some [0; 0; 0; 1; 1; 1]%float) 3.
Definition accept_b (c : curve_beh Binary64) (P : list Binary64) (e1 e2 u : Binary64) : bool :=
  match curve_dist c P u, curve_rows c u with
  | Ok d, Ok (pt, d1, _) => (d <=? e1)%float || match curve_cos pt d1 P with Ok x => (x <=? e2)%float | _ => false end
  | _, _ => false
  end.
Theorem C46_converged_refuted : exists (c : curve_obj Binary64) P u v,
  curve_inversion (beh_of_curve3 c) P lit_1em5 lit_1em5 100 = Ok u /\
  accept_b (beh_of_curve3 c) P lit_1em5 lit_1em5 u = false /\ accept_b (beh_of_curve3 c) P lit_1em5 lit_1em5 v = true /\
  curve_newton u [u; 0%float; 0%float] [1; 0; 0]%float [0; 0; 0]%float P = Ok v.
Proof.
  exists rod, [0.3125; 0; 0]%float, (match aget (samples (K := Binary64) 6) 2 with Ok v => v | _ => 0%float end : Binary64), 0.3125%float.
  split; [vm_compute; reflexivity|]; split; [vm_compute; reflexivity|]; split; vm_compute; reflexivity.
Qed.
Print Assumptions C46_converged_refuted.
(** With the repository's own curve class no point is ever projected, nor with
    curves of degree 1. *)
Theorem C46_repo_class : forall (K : Num) (c : curve_obj K) P e1 e2 mi u, curve_inversion (beh_of_curve c) P e1 e2 mi <> Ok u.
Proof. exact repo_curve_never. Qed.
Print Assumptions C46_repo_class.
Theorem C46_degree_one : forall (K : Num) (c : curve_obj K) P e1 e2 mi u, c_degree c = Some 1%Z ->
  curve_inversion (beh_of_curve3 c) P e1 e2 mi <> Ok u.
Proof. exact curve_degree_one. Qed.
Print Assumptions C46_degree_one.
Example C46_failures : curve_inversion (beh_of_curve rod) [0.3125; 0; 0]%float lit_1em5 lit_1em5 100 = Err ValueError /\
  curve_inversion (beh_of_curve3 (mkCurve (K := Binary64) (Some 1%Z) (Some [[0; 0; 0]; [1; 0; 0]]%float) (Some [0; 0; 1; 1]%float) 3))
    [0.3125; 0; 0]%float lit_1em5 lit_1em5 100 = Err IndexError.
Proof. split; vm_compute; reflexivity. Qed.

(** ** C47: surface inversion *)
Theorem C47_steps : forall (K : Num) (s : surf_beh K) P e1 e2 mi fuel, (0 <= mi)%Z -> (mi + 1 <= Z.of_nat fuel)%Z ->
  surface_inversion_fuel fuel s P e1 e2 mi = surface_inversion s P e1 e2 mi /\
  ((forall u v, sb_point s u v <> Diverge) -> (forall u v, sb_ders s u v <> Diverge) ->
   surface_inversion s P e1 e2 mi <> Diverge).
Proof. exact surf_steps. Qed.
Print Assumptions C47_steps.
Theorem C47_range : forall (s : surf_beh Exact) P e1 e2 mi u v,
  (forall u v q, sb_point s u v = Ok q -> unit_fin u /\ unit_fin v) ->
  (forall u v m, sb_ders s u v = Ok m -> Forall (fun r => length r = 3%nat) m) ->
  surface_inversion s P e1 e2 mi = Ok (u, v) -> unit_fin u /\ unit_fin v.
Proof. exact surf_result_range. Qed.
Print Assumptions C47_range.
(** What a returned pair satisfies; the tangents of the angle test are those of
    the previous pair. *)
Theorem C47_exit : forall (K : Num) (s : surf_beh K) P e1 e2 mi u v, (0 <= mi)%Z -> surface_inversion s P e1 e2 mi = Ok (u, v) ->
  (initial_guess_surf s P = Ok (u, v) /\ surf_accepts s P e1 e2 u v u v) \/
  (exists a b d, surf_newton s P a b d = Ok (u, v) /\
     ((exists t, np_bin nadd (vscale (u - a)%num (sr_u d)) (vscale (v - b)%num (sr_v d)) = Ok t /\ (vnorm t <=? e1)%num = true) \/
      surf_accepts s P e1 e2 a b u v)) \/
  surface_inversion_fuel (Z.to_nat mi) s P e1 e2 mi = Diverge.
Proof. exact surf_exit. Qed.
Print Assumptions C47_exit.
(** Two Newton steps see no derivatives but those at the initial guess. *)
Theorem C47_outdated_derivatives : forall (K : Num) nu nv pt (ders ders' : K -> K -> res (list (list K))) P e1 e2 u v,
  initial_guess_surf (mkSBeh nu nv pt ders) P = Ok (u, v) -> ders u v = ders' u v -> full_ders ders -> full_ders ders' ->
  surface_inversion (mkSBeh nu nv pt ders) P e1 e2 1 = surface_inversion (mkSBeh nu nv pt ders') P e1 e2 1.
Proof. exact surf_two_steps. Qed.
Print Assumptions C47_outdated_derivatives.
(** On a parallelogram the orthogonal projection is found exactly, unless the
    initial guess already passes the tests. *)
Theorem C47_flat : forall (s : surf_beh Exact) O A B P, acts_as_patch s O A B ->
  length O = 3%nat -> length A = 3%nat -> length B = 3%nat -> length P = 3%nat ->
  forall e1 e2, 0 <= e1 -> 0 <= e2 -> forall tu tv, 0 <= tu <= 1 -> 0 <= tv <= 1 ->
  dotR A (subR (patch O A B tu tv) P) = 0 -> dotR B (subR (patch O A B tu tv) P) = 0 ->
  0 < dotR A A * dotR B B - dotR A B * dotR A B ->
  forall mi, (1 <= sb_nu s)%Z -> (1 <= sb_nv s)%Z ->
  exists u v, 0 <= u <= 1 /\ 0 <= v <= 1 /\
    surface_inversion s (fin P) (Fin e1 : Exact) (Fin e2 : Exact) mi = Ok (Fin u : Exact, Fin v : Exact) /\
    ((u = tu /\ v = tv) \/
     (initial_guess_surf s (fin P) = Ok (Fin u : Exact, Fin v : Exact) /\
      let r := subR (patch O A B u v) P in
      normR r <= e1 \/ (Rabs (dotR A r) <= e2 * (normR A * normR r) /\ Rabs (dotR B r) <= e2 * (normR B * normR r)))).
Proof. exact patch_inversion. Qed.
Print Assumptions C47_flat.
Theorem C47_degree_one : forall (K : Num) (s : surf K) P e1 e2 mi r, (s_pu s = 1 \/ s_pv s = 1)%Z ->
  surface_inversion (beh_of_surf s) P e1 e2 mi <> Ok r.
Proof. exact surf_degree_one. Qed.
Print Assumptions C47_degree_one.
(** A saddle z = x y of degree 2 x 2: the point above (0.25, 0.375); degree 1 fails. *)
Definition saddle : surf Binary64 := mkSurf (K := Binary64) 2 2 3 3
  [[0; 0; 0]; [0; 0.5; 0]; [0; 1; 0]; [0.5; 0; 0]; [0.5; 0.5; 0.25]; [0.5; 1; 0.5]; [1; 0; 0]; [1; 0.5; 0.5]; [1; 1; 1]]%float
  [0; 0; 0; 1; 1; 1]%float [0; 0; 0; 1; 1; 1]%float.
Definition bilinear_patch : surf Binary64 := mkSurf (K := Binary64) 1 1 2 2
  [[0; 0; 0]; [0; 1; 0]; [1; 0; 0]; [1; 1; 1]]%float [0; 0; 1; 1]%float [0; 0; 1; 1]%float.
Example C47_example : exists u v : Binary64, surface_inversion (beh_of_surf saddle) [0.25; 0.375; 1]%float lit_1em5 lit_1em5 100 = Ok (u, v) /\
  ((0 <=? u) && (u <=? 1) && (0 <=? v) && (v <=? 1))%float = true /\
  surface_inversion (beh_of_surf bilinear_patch) [0.25; 0.375; 1]%float lit_1em5 lit_1em5 100 = Err IndexError.
Proof.
  exists (match surface_inversion (beh_of_surf saddle) [0.25; 0.375; 1]%float lit_1em5 lit_1em5 100 with Ok (u, _) => u | _ => nan end),
    (match surface_inversion (beh_of_surf saddle) [0.25; 0.375; 1]%float lit_1em5 lit_1em5 100 with Ok (_, v) => v | _ => nan end).
  split; [vm_compute; reflexivity|]; split; vm_compute; reflexivity.
Qed.
Example C47_sharp : surface_inversion_fuel 5 (beh_of_surf saddle) [0.25; 0.375; 1]%float (-1)%float (-1)%float 5 = Diverge /\
  (match surface_inversion_fuel 6 (beh_of_surf saddle) [0.25; 0.375; 1]%float (-1)%float (-1)%float 5 with Ok _ => true | _ => false end) = true.
Proof. split; vm_compute; reflexivity. Qed.
(** Objects meeting the hypotheses of C47_range, C47_outdated_derivatives, C47_flat. *)
Definition unit_b (x : Exact) : bool := ((0 <=? x) && (x <=? 1))%num.
Definition flat_beh : surf_beh Exact :=
  mkSBeh (K := Exact) 2 2 (fun u v => if unit_b u && unit_b v then Ok [u; v; Fin 0] else Err ValueError)
    (fun u v => Ok [[u; v; Fin 0]; fin [0; 1; 0]; fin [0; 0; 0]; fin [1; 0; 0]; fin [0; 0; 0]; fin [0; 0; 0]; fin [0; 0; 0]]).
Lemma unit_b_spec x : unit_b x = true <-> unit_fin x.
Proof.
  unfold unit_b, unit_fin; split.
  - destruct x as [r| | |]; cbn; try discriminate; intros H; apply andb_prop in H; destruct H as [H1 H2].
    apply ProofNum.Rleb_true in H1, H2; exists r; auto.
  - intros (r & -> & H1 & H2); cbn; rewrite !(proj2 (ProofNum.Rleb_true _ _)) by assumption; reflexivity.
Qed.
Example C47_hypotheses :
  (forall u v q, sb_point flat_beh u v = Ok q -> unit_fin u /\ unit_fin v) /\
  (forall u v m, sb_ders flat_beh u v = Ok m -> Forall (fun r => length r = 3%nat) m) /\
  full_ders (sb_ders flat_beh) /\
  acts_as_patch flat_beh [0; 0; 0] [1; 0; 0] [0; 1; 0] /\
  dotR [1; 0; 0] (subR (patch [0; 0; 0] [1; 0; 0] [0; 1; 0] (1/3) (1/7)) [1/3; 1/7; 5]) = 0 /\
  dotR [0; 1; 0] (subR (patch [0; 0; 0] [1; 0; 0] [0; 1; 0] (1/3) (1/7)) [1/3; 1/7; 5]) = 0 /\
  0 < dotR [1; 0; 0] [1; 0; 0] * dotR [0; 1; 0] [0; 1; 0] - dotR [1; 0; 0] [0; 1; 0] * dotR [1; 0; 0] [0; 1; 0].
Proof.
  split.
  { intros u v q; cbn [flat_beh sb_point]; destruct (unit_b u) eqn:E1; destruct (unit_b v) eqn:E2; try discriminate.
    intros _; split; apply unit_b_spec; assumption. }
  split; [intros u v m H; injection H as <-; repeat constructor|].
  split; [intros u v; eexists; split; [reflexivity|]; split; [cbn; lia|repeat constructor]|].
  split.
  { intros u v Hu Hv; split.
    - cbn [flat_beh sb_point].
      rewrite (proj2 (unit_b_spec (Fin u : Exact))), (proj2 (unit_b_spec (Fin v : Exact))) by (eexists; split; [reflexivity|assumption]).
      unfold patch, fin; cbn; repeat f_equal; lra.
    - exists [0; 0; 0], []; cbn [flat_beh sb_ders]; unfold patch, fin2, fin; cbn; repeat f_equal; lra. }
  repeat split; unfold dotR, subR, patch; cbn; lra.
Qed.

(** ** C48: the initial guess on a surface *)
Theorem C48_initial_guess : forall (s : surf_beh Exact) P q nu nv, sb_nu s = nu -> sb_nv s = nv -> (1 <= nu)%Z -> (1 <= nv)%Z ->
  (forall i j, (0 <= i < 2 * nu)%Z -> (0 <= j < 2 * nv)%Z ->
     sb_point s (Fin (IZR i / IZR (2 * nu - 1))) (Fin (IZR j / IZR (2 * nv - 1))) = Ok (fin (q i j)) /\ length (q i j) = length P) ->
  exists k l, (0 <= k < 2 * nu)%Z /\ (0 <= l < 2 * nv)%Z /\
    initial_guess_surf s (fin P) = Ok (Fin (IZR k / IZR (2 * nu - 1)) : Exact, Fin (IZR l / IZR (2 * nv - 1)) : Exact) /\
    ((exists i j, (0 <= i < 2 * nu)%Z /\ (0 <= j < 2 * nv)%Z /\ distR P (q i j) < 1000000) ->
       (forall i j, (0 <= i < 2 * nu)%Z -> (0 <= j < 2 * nv)%Z -> distR P (q k l) <= distR P (q i j)) /\
       (forall i j, (0 <= i < 2 * nu)%Z -> (0 <= j < 2 * nv)%Z -> (i < k \/ (i = k /\ j < l))%Z -> distR P (q k l) < distR P (q i j))) /\
    ((forall i j, (0 <= i < 2 * nu)%Z -> (0 <= j < 2 * nv)%Z -> 1000000 <= distR P (q i j)) -> k = 0%Z /\ l = 0%Z).
Proof. exact initial_guess_surf_spec. Qed.
Print Assumptions C48_initial_guess.
Theorem C48_empty : forall (K : Num) (s : surf_beh K) P, (sb_nu s <= 0 \/ sb_nv s <= 0)%Z -> initial_guess_surf s P = Err IndexError.
Proof. exact initial_guess_surf_empty. Qed.
Print Assumptions C48_empty.
Example C48_example : initial_guess_surf (beh_of_surf saddle) [0.25; 0.375; 0.125]%float
  = (let* u := aget (samples (K := Binary64) 6) 1 in let* v := aget (samples (K := Binary64) 6) 2 in Ok (u, v)) /\
  initial_guess_surf (beh_of_surf saddle) [0.25; 2000000; 1]%float = Ok (0%float : Binary64, 0%float : Binary64).
Proof. split; vm_compute; reflexivity. Qed.
Example C48_hypotheses : forall i j, (0 <= i < 4)%Z -> (0 <= j < 4)%Z ->
  sb_point flat_beh (Fin (IZR i / IZR (2 * 2 - 1))) (Fin (IZR j / IZR (2 * 2 - 1))) = Ok (fin [IZR i / 3; IZR j / 3; 0]) /\
  length [IZR i / 3; IZR j / 3; 0] = length [1/3; 1/7; 5].
Proof.
  intros i j Hi Hj; split; [|reflexivity]; cbn [flat_beh sb_point].
  assert (H : forall k, (0 <= k < 4)%Z -> unit_b (Fin (IZR k / IZR (2 * 2 - 1)) : Exact) = true).
  { intros k Hk; apply unit_b_spec; eexists; split; [reflexivity|]; change (IZR (2 * 2 - 1)) with 3.
    assert (0 <= IZR k <= 3) by (split; apply IZR_le; lia); lra. }
  rewrite !H by assumption; reflexivity.
Qed.

(** ** C49: parameterize_curve *)
Theorem C49_permutation : forall (K : Num) (c : curve_beh K) rows out, Forall (fun r => length r = 3%nat) rows ->
  parameterize_curve c (mkData 3 rows) = Ok out ->
  exists us, Forall2 (fun r u => curve_inversion c r lit_1em5 lit_1em5 100 = Ok u) rows us /\
    Permutation out (map (fun t => fst t ++ [snd t]) (combine rows us)).
Proof. exact parameterize_curve_perm. Qed.
Print Assumptions C49_permutation.
Theorem C49_sorted : forall (c : curve_beh Exact) rows out, Forall (fun r => length r = 3%nat) rows ->
  (forall u m, cb_ders c u = Ok m -> unit_fin u) ->
  parameterize_curve c (mkData 3 (fin2 rows)) = Ok out ->
  exists us sorted, Forall2 (fun r u => curve_inversion c (fin r) lit_1em5 lit_1em5 100 = Ok (Fin u : Exact) /\ 0 <= u <= 1) rows us /\
    out = fin2 sorted /\ Permutation sorted (map (fun t => fst t ++ [snd t]) (combine rows us)) /\
    StronglySorted (lex_le [3%nat; 0%nat; 1%nat; 2%nat]) sorted.
Proof. exact parameterize_curve_sorted. Qed.
Print Assumptions C49_sorted.
Theorem C49_not_three_dimensional : forall (K : Num) (c : curve_beh K) d out, ((dt_cols d + 1) mod 4 <> 0)%Z -> parameterize_curve c d <> Ok out.
Proof. exact parameterize_curve_bad. Qed.
Print Assumptions C49_not_three_dimensional.
Example C49_example : match parameterize_curve (beh_of_curve3 bowl) (mkData (K := Binary64) 3 [[1; 0; 0]; [0.5; 1; 1]; [0; 0; 0]]%float) with
  | Ok [[x0; y0; z0; u0]; [x1; y1; z1; u1]; [x2; y2; z2; u2]] =>
      ((x0 =? 0) && (u0 =? 0) && (x1 =? 0.5) && (z1 =? 1) && (0 <? u1) && (u1 <? u2) && (x2 =? 1))%float
  | _ => false end = true /\
  parameterize_curve (beh_of_curve3 bowl) (mkData (K := Binary64) 2 [[1; 0]; [0.5; 1]]%float) = Err ValueError.
Proof. split; vm_compute; reflexivity. Qed.

(** ** C50: parameterize_surface *)
Theorem C50_permutation : forall (K : Num) (s : surf_beh K) rows out, Forall (fun r => length r = 3%nat) rows ->
  parameterize_surface s (mkData 3 rows) = Ok out ->
  exists uvs, Forall2 (fun r uv => surface_inversion s r lit_1em5 lit_1em5 100 = Ok uv) rows uvs /\
    Permutation out (map (fun t => fst t ++ [fst (snd t); snd (snd t)]) (combine rows uvs)).
Proof. exact parameterize_surface_perm. Qed.
Print Assumptions C50_permutation.
Theorem C50_sorted : forall (s : surf_beh Exact) rows out, Forall (fun r => length r = 3%nat) rows ->
  (forall u v q, sb_point s u v = Ok q -> unit_fin u /\ unit_fin v) ->
  (forall u v m, sb_ders s u v = Ok m -> Forall (fun r => length r = 3%nat) m) ->
  parameterize_surface s (mkData 3 (fin2 rows)) = Ok out ->
  exists uvs sorted,
    Forall2 (fun r uv => surface_inversion s (fin r) lit_1em5 lit_1em5 100 = Ok (Fin (fst uv) : Exact, Fin (snd uv) : Exact) /\
                         0 <= fst uv <= 1 /\ 0 <= snd uv <= 1) rows uvs /\
    out = fin2 sorted /\ Permutation sorted (map (fun t => fst t ++ [fst (snd t); snd (snd t)]) (combine rows uvs)) /\
    StronglySorted (lex_le [3%nat; 4%nat; 0%nat; 1%nat; 2%nat]) sorted.
Proof. exact parameterize_surface_sorted. Qed.
Print Assumptions C50_sorted.
Theorem C50_not_three_dimensional : forall (K : Num) (s : surf_beh K) d out, ((dt_cols d + 2) mod 5 <> 0)%Z -> parameterize_surface s d <> Ok out.
Proof. exact parameterize_surface_bad. Qed.
Print Assumptions C50_not_three_dimensional.
Example C50_example : match parameterize_surface (beh_of_surf saddle) (mkData (K := Binary64) 3 [[1; 0; 0]; [0; 1; 0]; [0; 0; 0]; [1; 1; 1]]%float) with
  | Ok [[_; _; _; u0; v0]; [_; y1; _; u1; v1]; [x2; _; _; u2; v2]; [_; _; z3; u3; v3]] =>
      ((u0 =? 0) && (v0 =? 0) && (u1 =? 0) && (v1 =? 1) && (y1 =? 1) && (x2 =? 1) && (u2 =? 1) && (v2 =? 0) && (z3 =? 1) && (v3 =? 1))%float
  | _ => false end = true /\
  parameterize_surface (beh_of_surf saddle) (mkData (K := Binary64) 2 [[1; 0]; [0.5; 1]]%float) = Err ValueError.
Proof. split; vm_compute; reflexivity. Qed.
