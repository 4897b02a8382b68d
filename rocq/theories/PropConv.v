(** Properties C118-C119: convergence of the inversion of points near the nearest
    point (fit/algorithms/parameterize.py). *)
From Verif Require Import Py Num ModelKnots ModelCurve ModelSurface ModelParam Spec SpecParam SpecNewton SpecSmooth SpecConv MathCox MathDeriv ProofNum ProofInit ProofCurve ProofSurface ProofSurface2
  ProofParam ProofParam3 ProofParam5 ProofParam6 ProofParam7 ProofParam8 ProofShape4 ProofConv ProofConv2 ProofConv3 ProofConv4 ProofConv5 PropNewton Examples.
From Coq Require Import Floats Lra Lia.
Open Scope R_scope.

(** ** C118: curves *)
(** If on the parameters within [del] of a zero [r] of the slope the curvature is
    the derivative of the slope, stays at least [m] in size and varies by at most
    [th * m], every step brings the iterate closer by the factor [th]; the
    result comes after [max_iter + 2] steps or satisfies a stopping rule. *)
Theorem C118_contraction : forall (c : curve_beh Exact) pt d1 d2 Q e1 e2 mi, proper_curve c pt d1 d2 -> length Q = 3%nat ->
  forall r del m, 0 <= r <= 1 -> slope pt d1 Q r = 0 -> 0 < m ->
  (forall u, 0 <= u <= 1 -> Rabs (u - r) <= del -> derivable_pt_lim (slope pt d1 Q) u (curvature pt d1 d2 Q u) /\ m <= Rabs (curvature pt d1 d2 Q u)) ->
  forall th x0, 0 <= th < 1 ->
  (forall v w, 0 <= v <= 1 -> 0 <= w <= 1 -> Rabs (v - r) <= del -> Rabs (w - r) <= del -> Rabs (curvature pt d1 d2 Q v - curvature pt d1 d2 Q w) <= th * m) ->
  0 <= x0 <= 1 -> Rabs (x0 - r) <= del -> initial_guess_curve c (fin Q) = Ok (Fin x0 : Exact) ->
  exists u k, curve_inversion c (fin Q) (Fin e1 : Exact) (Fin e2 : Exact) (Z.of_nat mi) = Ok (Fin u : Exact) /\
    0 <= u <= 1 /\ (k <= S (S mi))%nat /\ Rabs (u - r) <= th ^ k * Rabs (x0 - r) /\
    (k = S (S mi) \/ curve_near (d1 u) (subR (pt u) Q) e1 e2 \/ (1 - th) * (normR (d1 u) * Rabs (u - r)) <= e1 \/
     exists u', curve_step pt d1 d2 Q u u' /\ 0 <= u' <= 1 /\ Rabs (u' - r) <= th * Rabs (u - r) /\ m * Rabs (u' - r) <= Rabs (slope pt d1 Q u') /\ curve_near (d1 u') (subR (pt u') Q) e1 e2).
Proof. exact inversion_linear. Qed.
Print Assumptions C118_contraction.
(** With a Lipschitz constant [L] for the curvature and [L * del <= m / 2] the
    number of correct binary digits doubles in every step. *)
Theorem C118_quadratic : forall (c : curve_beh Exact) pt d1 d2 Q e1 e2 mi, proper_curve c pt d1 d2 -> length Q = 3%nat ->
  forall r del m, 0 <= r <= 1 -> slope pt d1 Q r = 0 -> 0 < m ->
  (forall u, 0 <= u <= 1 -> Rabs (u - r) <= del -> derivable_pt_lim (slope pt d1 Q) u (curvature pt d1 d2 Q u) /\ m <= Rabs (curvature pt d1 d2 Q u)) ->
  forall L x0, 0 <= L -> L * del <= m / 2 ->
  (forall v w, 0 <= v <= 1 -> 0 <= w <= 1 -> Rabs (v - r) <= del -> Rabs (w - r) <= del -> Rabs (curvature pt d1 d2 Q v - curvature pt d1 d2 Q w) <= L * Rabs (v - w)) ->
  0 <= x0 <= 1 -> Rabs (x0 - r) <= del -> initial_guess_curve c (fin Q) = Ok (Fin x0 : Exact) ->
  exists u k, curve_inversion c (fin Q) (Fin e1 : Exact) (Fin e2 : Exact) (Z.of_nat mi) = Ok (Fin u : Exact) /\
    0 <= u <= 1 /\ (k <= S (S mi))%nat /\ Rabs (u - r) <= (1 / 2) ^ (Nat.pow 2 k - 1) * Rabs (x0 - r) /\
    (k = S (S mi) \/ curve_near (d1 u) (subR (pt u) Q) e1 e2 \/ normR (d1 u) * Rabs (u - r) <= 2 * e1 \/
     exists u', curve_step pt d1 d2 Q u u' /\ 0 <= u' <= 1 /\ Rabs (u' - r) <= 1 / 2 * Rabs (u - r) /\ m * Rabs (u' - r) <= Rabs (slope pt d1 Q u') /\ curve_near (d1 u') (subR (pt u') Q) e1 e2).
Proof. exact inversion_square. Qed.
Print Assumptions C118_quadratic.
(** The package's curves of degree at least 3 with simple interior knots: around
    every zero of the slope with nonzero curvature there is such an interval. *)
Theorem C118_spline : forall p U P d, clamped (Z.of_nat p) (len P) U -> strict (Z.of_nat p) (len P) U -> kn U (Z.of_nat p) = 0 -> kn U (len P) = 1 ->
  wide_end (len P) U -> Forall (fun row => length row = 3%nat) P -> (3 <= p)%nat ->
  forall pt d1 d2 Q r, proper_curve (beh_of_curve3 (curve_of (Z.of_nat p) U P d)) pt d1 d2 -> length Q = 3%nat -> 0 < r < 1 -> slope pt d1 Q r = 0 -> curvature pt d1 d2 Q r <> 0 ->
    exists del m, 0 < del /\ 0 < m /\ forall e1 e2 mi x0, initial_guess_curve (beh_of_curve3 (curve_of (Z.of_nat p) U P d)) (fin Q) = Ok (Fin x0 : Exact) -> Rabs (x0 - r) <= del ->
    exists u k, curve_inversion (beh_of_curve3 (curve_of (Z.of_nat p) U P d)) (fin Q) (Fin e1 : Exact) (Fin e2 : Exact) (Z.of_nat mi) = Ok (Fin u : Exact) /\
      0 <= u <= 1 /\ (k <= S (S mi))%nat /\ Rabs (u - r) <= (1 / 2) ^ (Nat.pow 2 k - 1) * Rabs (x0 - r) /\
      (k = S (S mi) \/ curve_near (d1 u) (subR (pt u) Q) e1 e2 \/ normR (d1 u) * Rabs (u - r) <= 2 * e1 \/
       exists u', curve_step pt d1 d2 Q u u' /\ 0 <= u' <= 1 /\ Rabs (u' - r) <= 1 / 2 * Rabs (u - r) /\ m * Rabs (u' - r) <= Rabs (slope pt d1 Q u') /\ curve_near (d1 u') (subR (pt u') Q) e1 e2).
Proof. exact curve_converges. Qed.
Print Assumptions C118_spline.

(** The parabola and the point (65/256, -1/2, 0) with projection at 1/8: from the
    guess 0 twelve further steps leave an error below 10^-9. *)
Lemma parab_guess : initial_guess_curve parab_obj (fin [65/256; -(1/2); 0]) = Ok (Fin 0 : Exact).
Proof.
  destruct (initial_guess_spec parab_obj [65/256; -(1/2); 0] (fun i => parab (IZR i / IZR (2 * 1 - 1))) 1 eq_refl ltac:(lia)) as (k & Hk & EG & HB & _).
  { intros i Hi; split; reflexivity. }
  assert (k = 0%Z).
  { destruct (Z.eq_dec k 1) as [->|]; [|lia]; exfalso; destruct HB as [HB _].
    - exists 0%Z; split; [lia|]; apply Rle_lt_trans with 1; [|lra]; unfold distR, subR, parab; cbn [combine map fst snd].
      apply norm_le; [lra|]; change (IZR (2 * 1 - 1)) with 1; replace (0 / 1) with 0 by lra; lra.
    - specialize (HB 0%Z ltac:(lia)); revert HB; apply Rlt_not_le; unfold distR, subR, parab; cbn [combine map fst snd].
      apply Rle_lt_trans with (6/10); [apply norm_le|apply norm_gt]; try lra; change (IZR (2 * 1 - 1)) with 1; cbv beta; replace (0 / 1) with 0 by lra; replace (1 / 1) with 1 by lra; lra. }
  subst k; rewrite EG; do 2 f_equal; change (IZR (2 * 1 - 1)) with 1; lra.
Qed.
Lemma parab_slope u : slope parab parab_1 [65/256; -(1/2); 0] u = 2 * u * u * u + 2 * u - 65/256.
Proof. unfold slope, parab, parab_1, subR, dotR; cbn [combine map fold_right fst snd]; field. Qed.
Lemma parab_curvature u : curvature parab parab_1 parab_2 [65/256; -(1/2); 0] u = 6 * u * u + 2.
Proof. unfold curvature, parab, parab_1, parab_2, subR, dotR; cbn [combine map fold_right fst snd]; field. Qed.
Lemma parab_derivable u : derivable_pt_lim (slope parab parab_1 [65/256; -(1/2); 0]) u (6 * u * u + 2).
Proof.
  apply (derivable_pt_lim_ext (fun u => 2 * u * u * u + 2 * u - 65/256)); [intros x; symmetry; apply parab_slope|].
  replace (6 * u * u + 2) with (((0 * u + 2 * 1) * u + 2 * u * 1) * u + 2 * u * u * 1 + (0 * u + 2 * 1) - 0) by ring.
  apply (derivable_pt_lim_minus (fun u => 2 * u * u * u + 2 * u) (fun _ => 65/256)); [|apply derivable_pt_lim_const].
  apply (derivable_pt_lim_plus (fun u => 2 * u * u * u) (fun u => 2 * u)).
  - apply (derivable_pt_lim_mult (fun u => 2 * u * u) (fun u => u)); [|apply derivable_pt_lim_id].
    apply (derivable_pt_lim_mult (fun u => 2 * u) (fun u => u)); [|apply derivable_pt_lim_id].
    apply (derivable_pt_lim_mult (fun _ => 2) (fun u => u)); [apply derivable_pt_lim_const|apply derivable_pt_lim_id].
  - apply (derivable_pt_lim_mult (fun _ => 2) (fun u => u)); [apply derivable_pt_lim_const|apply derivable_pt_lim_id].
Qed.
Lemma parab_root u : 0 <= u <= 1 -> curve_near (parab_1 u) (subR (parab u) [65/256; -(1/2); 0]) 0 0 -> u = 1/8.
Proof.
  intros Hu [H|[_ H]].
  - exfalso; revert H; apply Rlt_not_le; unfold parab, subR; cbn [combine map fst snd]; apply norm_gt; nra.
  - rewrite Rmult_0_l in H; unfold parab, parab_1, subR, dotR in H; cbn [combine map fold_right fst snd] in H.
    assert (E : 2 * (u - 1/8) * (u * u + u / 8 + 65/64) = 0).
    { pose proof (Rabs_pos (1 * (u - 65 / 256) + (2 * u * (u * u - - (1 / 2)) + (0 * (0 - 0) + 0)))) as A.
      assert (A0 : Rabs (1 * (u - 65 / 256) + (2 * u * (u * u - - (1 / 2)) + (0 * (0 - 0) + 0))) = 0) by lra.
      destruct (Req_EM_T (1 * (u - 65 / 256) + (2 * u * (u * u - - (1 / 2)) + (0 * (0 - 0) + 0))) 0) as [Z|N]; [|apply Rabs_no_R0 in N; contradiction].
      rewrite <- Z; field. }
    nra.
Qed.
Example C118_contraction_example : exists u, curve_inversion parab_obj (fin [65/256; -(1/2); 0]) (Fin 0 : Exact) (Fin 0 : Exact) (Z.of_nat 10) = Ok (Fin u : Exact) /\ Rabs (u - 1/8) <= / 1000000000.
Proof.
  destruct (C118_contraction parab_obj parab parab_1 parab_2 [65/256; -(1/2); 0] 0 0 10 parab_proper eq_refl (1/8) (1/8) 2 ltac:(lra)) with (th := 3/16) (x0 := 0) as (u & k & E & Hu & Hk & B & St).
  - rewrite parab_slope; field.
  - lra.
  - intros u Hu Hb; rewrite parab_curvature; split; [apply parab_derivable|]; rewrite Rabs_pos_eq; nra.
  - lra.
  - intros v w Hv Hw Bv Bw; rewrite !parab_curvature; unfold Rabs in Bv, Bw; destruct (Rcase_abs (v - 1/8)), (Rcase_abs (w - 1/8)); apply Rabs_le; nra.
  - lra.
  - rewrite Rabs_left1; lra.
  - exact parab_guess.
  - exists u; split; [exact E|].
    replace (Rabs (0 - 1/8)) with (1/8) in B by (rewrite Rabs_left1; lra).
    assert (HE : k = 12%nat \/ u = 1/8).
    { destruct St as [St|[St|[St|(u' & S0 & U' & S1 & S2 & S3)]]]; [left; exact St|right; apply parab_root; assumption|right|right].
      - assert (N : 0 < normR (parab_1 u)) by (unfold parab_1; apply norm_gt; nra).
        pose proof (Rabs_pos (u - 1/8)) as A; destruct (Req_EM_T (u - 1/8) 0) as [Z|Z]; [lra|]; apply Rabs_pos_lt in Z.
        pose proof (Rmult_lt_0_compat _ _ N Z); lra.
      - apply parab_root in S3; [|exact U']; subst u'.
        unfold curve_step in S0; rewrite parab_slope, parab_curvature in S0; destruct S0 as [[H0 H]|[(H0 & _)|(H0 & _)]]; try nra.
        assert (C : u - (2 * u * u * u + 2 * u - 65/256) / (6 * u * u + 2) = 1/8) by (revert H; unfold clampR, Rmax, Rmin; destruct Rle_dec, Rle_dec; lra).
        assert (D : (u - 1/8) * (6 * u * u + 2) = 2 * u * u * u + 2 * u - 65/256)
          by (replace (u - 1/8) with ((2 * u * u * u + 2 * u - 65/256) / (6 * u * u + 2)) by lra; field; exact H0).
        assert (F : 4 * (u - 1/8) * (u - 1/8) * (u + 1/16) = 0) by lra.
        assert (G : (u - 1/8) * (u - 1/8) = 0) by nra; nra. }
    destruct HE as [-> | ->]; [|rewrite Rminus_eq_0, Rabs_R0; lra].
    eapply Rle_trans; [exact B|]; lra.
Qed.
Example C118_quadratic_hypotheses : 3 * (1/8) <= 2 / 2 /\
  (forall v w, 0 <= v <= 1 -> 0 <= w <= 1 -> Rabs (v - 1/8) <= 1/8 -> Rabs (w - 1/8) <= 1/8 ->
    Rabs (curvature parab parab_1 parab_2 [65/256; -(1/2); 0] v - curvature parab parab_1 parab_2 [65/256; -(1/2); 0] w) <= 3 * Rabs (v - w)).
Proof.
  split; [lra|]; intros v w Hv Hw Bv Bw; rewrite !parab_curvature.
  replace (6 * v * v + 2 - (6 * w * w + 2)) with (6 * (v + w) * (v - w)) by ring; rewrite Rabs_mult; apply Rmult_le_compat_r; [apply Rabs_pos|].
  unfold Rabs in Bv, Bw; destruct (Rcase_abs (v - 1/8)), (Rcase_abs (w - 1/8)); rewrite Rabs_pos_eq; lra.
Qed.

(** The cubic Bezier curve (u, u^2, 0) with four control points and the point
    (1, -1/4, 0): the slope vanishes at 1/2 with curvature 3. *)
Definition cubU : list R := [0; 0; 0; 0; 1; 1; 1; 1].
Definition cubP : list (list R) := [[0; 0; 0]; [1/3; 0; 0]; [2/3; 1/3; 0]; [1; 1; 0]].
Lemma cub_clamped : clamped (Z.of_nat 3) 4 cubU /\ strict (Z.of_nat 3) 4 cubU /\ kn cubU (Z.of_nat 3) = 0 /\ kn cubU 4 = 1 /\ wide_end 4 cubU.
Proof.
  change (Z.of_nat 3) with 3%Z; split; [solve_clamped|]; split; [intros i Hi; assert (i = 3%Z) by (cbn in Hi; lia); subst i; unfold cubU; kn_eval; lra|].
  split; [unfold cubU; kn_eval; lra|]; split; [unfold cubU; kn_eval; lra|]; unfold wide_end, cubU; kn_eval; rewrite ?Rabs_R1; lra.
Qed.
Lemma sdiv_none a : sdiv a (0 - 0) = 0. Proof. unfold sdiv; destruct (Req_EM_T (0 - 0) 0) as [|N]; [reflexivity|exfalso; apply N; ring]. Qed.
Lemma sdiv_none' a : sdiv a (1 - 1) = 0. Proof. unfold sdiv; destruct (Req_EM_T (1 - 1) 0) as [|N]; [reflexivity|exfalso; apply N; ring]. Qed.
Lemma sdiv_one a : sdiv a (1 - 0) = a. Proof. unfold sdiv; destruct (Req_EM_T (1 - 0) 0) as [E|_]; [lra|field]. Qed.
Ltac bezier := cbn [map length zsum nth]; cbn [Dx cox]; kn_eval; rewrite ?sdiv_none, ?sdiv_none', ?sdiv_one;
  cbv [delta Z.eqb Pos.eqb Z.add Z.mul Z.of_nat Pos.of_succ_nat Pos.succ Pos.add Pos.add_carry Pos.mul Z.pos_sub Z.to_nat Pos.to_nat Pos.iter_op Nat.add nth]; cbn [INR]; field.
Lemma cub_span u : 0 <= u <= 1 -> span_of 4 (Z.of_nat 3) cubU u = 3%Z.
Proof.
  intros Hu; destruct cub_clamped as (A & B & C & D & _); destruct (span_of_ok (Z.of_nat 3) 4 cubU u A B C D Hu) as (_ & E & _); lia.
Qed.
Example C118_spline_example : exists pt d1 d2, let Q := [1; -(1/4); 0] in
  proper_curve (beh_of_curve3 (curve_of (Z.of_nat 3) cubU cubP 3)) pt d1 d2 /\ pt (1/2) = [1/2; 1/4; 0] /\ slope pt d1 Q (1/2) = 0 /\ curvature pt d1 d2 Q (1/2) = 3.
Proof.
  destruct cub_clamped as (A & B & C & D & _).
  exists (curve_row 3 cubU cubP 0), (curve_row 3 cubU cubP 1), (curve_row 3 cubU cubP 2); cbv zeta.
  split; [apply curve_proper; try assumption; [lia|repeat constructor]|].
  assert (E : curve_row 3 cubU cubP 0 (1/2) = [1/2; 1/4; 0] /\ curve_row 3 cubU cubP 1 (1/2) = [1; 1; 0] /\ curve_row 3 cubU cubP 2 (1/2) = [0; 2; 0]).
  { unfold curve_row; change (len cubP) with 4%Z; rewrite cub_span by lra; unfold ders_row.
    cbn [map]; change (Z.to_nat 0) with 0%nat; change (Z.to_nat 1) with 1%nat; change (Z.to_nat 2) with 2%nat; unfold curve_ders, coords, cubP.
    repeat split; (f_equal; [|f_equal; [|f_equal]]); bezier. }
  destruct E as (E0 & E1 & E2); split; [exact E0|]; unfold slope, curvature; rewrite E0, E1, E2; unfold subR, dotR; cbn [combine map fold_right fst snd]; split; field.
Qed.

(** ** C119: surfaces *)
(** The package's surfaces of degrees at least 3 with simple interior knots, a
    point on the surface where the tangents are independent: for every factor
    [th] there is a distance within which every step brings the pair of
    parameters closer by that factor. *)
Theorem C119_on_surface : forall p q nu nv U V P, clamped (Z.of_nat p) (Z.of_nat nu) U -> strict (Z.of_nat p) (Z.of_nat nu) U -> kn U (Z.of_nat p) = 0 -> kn U (Z.of_nat nu) = 1 -> wide_end (Z.of_nat nu) U ->
  clamped (Z.of_nat q) (Z.of_nat nv) V -> strict (Z.of_nat q) (Z.of_nat nv) V -> kn V (Z.of_nat q) = 0 -> kn V (Z.of_nat nv) = 1 -> wide_end (Z.of_nat nv) V ->
  Forall (fun row => length row = 3%nat) P -> length P = (nu * nv)%nat -> (3 <= p)%nat -> (3 <= q)%nat ->
  let s := beh_of_surf (surf_of p q nu nv U V P) in
  forall pt du dv duu dvv duv a b th, proper_surface s pt du dv duu dvv duv -> 0 < a < 1 -> 0 < b < 1 -> 0 < th < 1 ->
    dotR (du a b) (du a b) * dotR (dv a b) (dv a b) <> dotR (du a b) (dv a b) * dotR (du a b) (dv a b) ->
    exists del, 0 < del /\ forall e1 e2 mi x y, initial_guess_surf s (fin (pt a b)) = Ok (Fin x : Exact, Fin y : Exact) -> gap (x, y) (a, b) <= del ->
    exists u v k, surface_inversion s (fin (pt a b)) (Fin e1 : Exact) (Fin e2 : Exact) (Z.of_nat mi) = Ok (Fin u : Exact, Fin v : Exact) /\
      0 <= u <= 1 /\ 0 <= v <= 1 /\ (k <= S mi)%nat /\ gap (u, v) (a, b) <= th ^ k * gap (x, y) (a, b) /\
      (k = S mi \/ surf_near (du u v) (dv u v) (subR (pt u v) (pt a b)) e1 e2 \/
       exists d w, gap w (a, b) <= gap d (a, b) /\ gap (u, v) (a, b) <= th * gap w (a, b) /\ surf_stop pt du dv (pt a b) e1 e2 d w (u, v)).
Proof. exact surface_converges. Qed.
Print Assumptions C119_on_surface.
(** A bicubic patch: (u, v, u^3 v^2) with its tangents at (1/2, 1/2). *)
Definition cubS : list (list R) := [[0; 0; 0]; [0; 1/3; 0]; [0; 2/3; 0]; [0; 1; 0]; [1/3; 0; 0]; [1/3; 1/3; 0]; [1/3; 2/3; 0]; [1/3; 1; 0];
  [2/3; 0; 0]; [2/3; 1/3; 0]; [2/3; 2/3; 0]; [2/3; 1; 0]; [1; 0; 0]; [1; 1/3; 0]; [1; 2/3; 1/3]; [1; 1; 1]].
Example C119_on_surface_example : exists pt du dv duu dvv duv, proper_surface (beh_of_surf (surf_of 3 3 4 4 cubU cubU cubS)) pt du dv duu dvv duv /\
  Forall (fun row => length row = 3%nat) cubS /\ length cubS = (4 * 4)%nat /\ wide_end (Z.of_nat 4) cubU /\
  du (1/2) (1/2) = [1; 0; 3/16] /\ dv (1/2) (1/2) = [0; 1; 1/8] /\
  dotR (du (1/2) (1/2)) (du (1/2) (1/2)) * dotR (dv (1/2) (1/2)) (dv (1/2) (1/2)) <> dotR (du (1/2) (1/2)) (dv (1/2) (1/2)) * dotR (du (1/2) (1/2)) (dv (1/2) (1/2)).
Proof.
  destruct cub_clamped as (A & B & C & D & W); change 4%Z with (Z.of_nat 4) in A, B, D, W.
  set (f := surf_row 3 3 4 4 cubU cubU cubS).
  exists (f 0%nat 0%nat), (f 1%nat 0%nat), (f 0%nat 1%nat), (f 2%nat 0%nat), (f 0%nat 2%nat), (f 1%nat 1%nat).
  assert (HF : Forall (fun row => length row = 3%nat) cubS) by repeat constructor.
  split; [apply surf_rows_proper; try assumption; try reflexivity; lia|]; split; [exact HF|]; split; [reflexivity|]; split; [exact W|].
  assert (E1 : f 1%nat 0%nat (1/2) (1/2) = [1; 0; 3/16]).
  { unfold f, surf_row; change (Z.of_nat 4) with 4%Z; rewrite !cub_span by lra; cbn [map]; unfold surface_ders, coords, cubS; (f_equal; [|f_equal; [|f_equal]]); bezier. }
  assert (E2 : f 0%nat 1%nat (1/2) (1/2) = [0; 1; 1/8]).
  { unfold f, surf_row; change (Z.of_nat 4) with 4%Z; rewrite !cub_span by lra; cbn [map]; unfold surface_ders, coords, cubS; (f_equal; [|f_equal; [|f_equal]]); bezier. }
  split; [exact E1|]; split; [exact E2|]; rewrite E1, E2; unfold dotR; cbn [combine map fold_right fst snd]; lra.
Qed.

(** Off the surface this fails: the channel (u - 1/2, v - 1/2, (u - 1/2)^2) and the
    point (0, 0, 3/8), nearest to the surface at (1/2, 1/2), where the matrix of
    the step is regular.  From guesses as close as one likes two steps at least
    double the distance from (1/2, 1/2), as the second uses the derivatives of
    the guess. *)
Theorem C119_off_surface_refuted : (forall u v, distR (chan (1/2) (1/2)) high <= distR (chan u v) high) /\
  m_det chan chan_u chan_v chan_uu chan_0 chan_0 high (1/2, 1/2) (1/2, 1/2) <> 0 /\
  forall del, 0 < del -> exists s x y u v, proper_surface s chan chan_u chan_v chan_uu chan_0 chan_0 /\
    initial_guess_surf s (fin high) = Ok (Fin x : Exact, Fin y : Exact) /\ 0 < gap (x, y) (1/2, 1/2) <= del /\
    surface_inversion s (fin high) (Fin 0 : Exact) (Fin 0 : Exact) 1 = Ok (Fin u : Exact, Fin v : Exact) /\
    2 * gap (x, y) (1/2, 1/2) <= gap (u, v) (1/2, 1/2).
Proof. exact moves_away. Qed.
Print Assumptions C119_off_surface_refuted.
(** The same channel as a biquadratic surface of the package, on doubles, with the
    default tolerances 1e-5 and 100 steps: the result (0.7966, 0.5) is
    further from the point than the guess (0.4, 0.4) and than (0.5, 0.5). *)
Open Scope float_scope.
Definition chan64 : surf Binary64 := mkSurf (K := Binary64) 2%Z 2%Z 3%Z 3%Z
  [[-0.5; -0.5; 0.25]; [-0.5; 0; 0.25]; [-0.5; 0.5; 0.25]; [0; -0.5; -0.25]; [0; 0; -0.25]; [0; 0.5; -0.25]; [0.5; -0.5; 0.25]; [0.5; 0; 0.25]; [0.5; 0.5; 0.25]]
  [0; 0; 0; 1; 1; 1] [0; 0; 0; 1; 1; 1].
Definition far64 (u v : PrimFloat.float) : option PrimFloat.float :=
  match sb_point (beh_of_surf chan64) u v with Ok [x; y; z] => Some (PrimFloat.sqrt (x * x + y * y + (z - 0.375) * (z - 0.375))) | _ => None end.
Theorem C119_default_refuted : exists x y u v d0 d1 dn : PrimFloat.float,
  initial_guess_surf (beh_of_surf chan64) [0; 0; 0.375] = Ok (x, y) /\
  surface_inversion (beh_of_surf chan64) [0; 0; 0.375] (0x1.4f8b588e368f1p-17) (0x1.4f8b588e368f1p-17) 100 = Ok (u, v) /\
  far64 x y = Some d0 /\ far64 u v = Some d1 /\ far64 0.5 0.5 = Some dn /\ (d0 <? d1 = true)%float /\ (dn <? d0 = true)%float.
Proof.
  destruct (initial_guess_surf (beh_of_surf chan64) [0; 0; 0.375]) as [[x y]| |] eqn:EG; [|vm_compute in EG; discriminate EG..].
  destruct (surface_inversion (beh_of_surf chan64) [0; 0; 0.375] (0x1.4f8b588e368f1p-17) (0x1.4f8b588e368f1p-17) 100) as [[u v]| |] eqn:ER; [|vm_compute in ER; discriminate ER..].
  vm_compute in EG, ER; injection EG as <- <-; injection ER as <- <-.
  do 7 eexists; repeat (split; [vm_compute; reflexivity|]); vm_compute; reflexivity.
Qed.
Print Assumptions C119_default_refuted.
