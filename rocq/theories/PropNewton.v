(** Properties C77-C78: the inversion of points iterate by iterate, in exact
    arithmetic (fit/algorithms/parameterize.py). *)
From Verif Require Import Py Num ModelKnots ModelCurve ModelSurface ModelParam Spec SpecParam SpecNewton ProofNum ProofInit ProofCurve ProofSurface
  ProofParam ProofParam3 ProofParam5 ProofParam7 ProofParam8 Examples.
Open Scope R_scope.

(** ** C77: curves *)
(** The result in terms of the sequence of Newton iterates x(0), x(1), ...: the
    guess if it is accepted; otherwise the iterate before the first accepted
    one; otherwise iterate max_iter + 2; ValueError where the step is 0/0. *)
Theorem C77_trace : forall (c : curve_beh Exact) pt d1 d2 Q e1 e2, proper_curve c pt d1 d2 -> length Q = 3%nat ->
  forall mi (x : nat -> R), 0 <= x O <= 1 -> initial_guess_curve c (fin Q) = Ok (Fin (x O) : Exact) ->
  let run := curve_inversion c (fin Q) (Fin e1 : Exact) (Fin e2 : Exact) (Z.of_nat mi) in
  (curve_near (d1 (x O)) (subR (pt (x O)) Q) e1 e2 -> run = Ok (Fin (x O) : Exact)) /\
  (~ curve_near (d1 (x O)) (subR (pt (x O)) Q) e1 e2 -> forall k, (k <= S mi)%nat ->
     (forall i, (i < k)%nat -> curve_step pt d1 d2 Q (x i) (x (S i)) /\ ~ curve_stop pt d1 Q e1 e2 (x i) (x (S i))) ->
     (curve_step pt d1 d2 Q (x k) (x (S k)) -> curve_stop pt d1 Q e1 e2 (x k) (x (S k)) -> run = Ok (Fin (x k) : Exact)) /\
     (curve_step pt d1 d2 Q (x k) (x (S k)) -> ~ curve_stop pt d1 Q e1 e2 (x k) (x (S k)) -> k = S mi -> run = Ok (Fin (x (S k)) : Exact)) /\
     (slope pt d1 Q (x k) = 0 -> curvature pt d1 d2 Q (x k) = 0 -> run = Err ValueError)).
Proof. exact curve_trace. Qed.
Print Assumptions C77_trace.
(** These are all cases: from every parameter there is a step, or the slope and
    its derivative vanish. *)
Theorem C77_cases : forall pt d1 d2 Q u,
  (exists u', curve_step pt d1 d2 Q u u') \/ (slope pt d1 Q u = 0 /\ curvature pt d1 d2 Q u = 0).
Proof. exact curve_step_exists. Qed.
Print Assumptions C77_cases.
(** For the package's curves of degree at least 2 the slope and curvature are the
    first and second derivative of half the squared distance on the knot span. *)
Theorem C77_newton : forall p U P d, clamped (Z.of_nat p) (len P) U -> strict (Z.of_nat p) (len P) U ->
  kn U (Z.of_nat p) = 0 -> kn U (len P) = 1 -> (2 <= p)%nat -> Forall (fun row => length row = 3%nat) P ->
  exists pt d1 d2, proper_curve (beh_of_curve3 (curve_of (Z.of_nat p) U P d)) pt d1 d2 /\
    forall u s Q, 0 <= u <= 1 -> find_span (len P) (Z.of_nat p) (Fin u : Exact) (fin U) = Ok s -> length Q = 3%nat ->
    exists g1 g2, nth_derivative 1 (half_sq (fun c => curve_piece U s p (coords c P)) Q) g1 /\
      nth_derivative 2 (half_sq (fun c => curve_piece U s p (coords c P)) Q) g2 /\
      slope pt d1 Q u = g1 u /\ curvature pt d1 d2 Q u = g2 u.
Proof. exact curve_newton_true. Qed.
Print Assumptions C77_newton.
Example C77_newton_hypotheses : let P := [[0; 0; 0]; [1/2; 0; 0]; [1; 1; 0]] in let U := [0; 0; 0; 1; 1; 1] in
  clamped (Z.of_nat 2) (len P) U /\ strict (Z.of_nat 2) (len P) U /\ kn U (Z.of_nat 2) = 0 /\ kn U (len P) = 1 /\ (2 <= 2)%nat /\
  Forall (fun row => length row = 3%nat) P.
Proof.
  cbv zeta; change (len _) with 3%Z; change (Z.of_nat 2) with 2%Z.
  split; [solve_clamped|]; split; [intros i Hi; assert (i = 2%Z) by lia; subst i; kn_eval; lra|]; split; [kn_eval; lra|]; split; [kn_eval; lra|].
  split; [lia|]; repeat constructor.
Qed.

(** The parabola (u, u^2, 0) and the point (1/4, -1/2, 0): from the guess 0 the
    iterates are 1/8, 33/268, ...; the second step is short enough, and 1/8 is
    returned. *)
Definition parab (u : R) : list R := [u; u * u; 0].
Definition parab_1 (u : R) : list R := [1; 2 * u; 0].
Definition parab_2 (_ : R) : list R := [0; 2; 0].
Definition unit_dec (x : Exact) : bool := ((0 <=? x) && (x <=? 1))%num.
Definition parab_obj : curve_beh Exact := mkBeh (K := Exact) 1 (fun u => match u with Fin r => Ok (fin (parab r)) | _ => Ok [] end)
  (fun u => match u with Fin r => if unit_dec u then Ok (fin2 [parab r; parab_1 r; parab_2 r]) else Err ValueError | _ => Err ValueError end).
Lemma parab_proper : proper_curve parab_obj parab parab_1 parab_2.
Proof.
  split.
  - intros u Hu; split; [reflexivity|]; split; [reflexivity|]; split; [reflexivity|]; split; [reflexivity|]; exists [].
    cbn [parab_obj cb_ders]; unfold unit_dec; rewrite !E_ofZ, !E_leb, (proj2 (Rleb_true 0 u)), (proj2 (Rleb_true u 1)) by lra; reflexivity.
  - intros u Hu; cbn [parab_obj cb_ders]; destruct u as [r| | |]; try reflexivity; destruct (unit_dec (Fin r)) eqn:E; [|reflexivity].
    exfalso; apply Hu; exists r; split; [reflexivity|]; unfold unit_dec in E; rewrite !E_ofZ, !E_leb in E; apply andb_prop in E.
    rewrite !Rleb_true in E; exact E.
Qed.
Lemma norm_gt a b c e : 0 <= e -> e * e < a * a + b * b + c * c -> e < normR [a; b; c].
Proof.
  intros He H; unfold normR, dotR; cbn [combine map fold_right fst snd]; rewrite <- (sqrt_square e He).
  apply sqrt_lt_1; nra.
Qed.
Lemma norm_le a b c e : 0 <= e -> a * a + b * b + c * c <= e * e -> normR [a; b; c] <= e.
Proof.
  intros He H; unfold normR, dotR; cbn [combine map fold_right fst snd]; rewrite <- (sqrt_square e He).
  apply sqrt_le_1; nra.
Qed.
Lemma not_right t r : dotR t r <> 0 -> ~ right_angle t r 0.
Proof. intros H [_ L]; rewrite Rmult_0_l in L; pose proof (Rabs_pos_lt _ H); lra. Qed.
Lemma clamp_in x : 0 <= x <= 1 -> clampR x = x.
Proof. intros H; unfold clampR, Rmax, Rmin; destruct (Rle_dec 1 x), (Rle_dec 0 _); lra. Qed.
Ltac vecn := unfold parab, parab_1, subR; cbn [combine map fst snd].
Definition iterates (k : nat) : R := match k with O => 0 | 1%nat => 1/8 | _ => 33/268 end.
Ltac vecs := unfold slope, curvature, parab, parab_1, parab_2, subR, dotR; cbn [combine map fold_right fst snd].
Lemma parab_step u u' a b : slope parab parab_1 [1/4; -(1/2); 0] u = a -> curvature parab parab_1 parab_2 [1/4; -(1/2); 0] u = b -> b <> 0 ->
  u - a / b = u' -> 0 <= u' <= 1 -> curve_step parab parab_1 parab_2 [1/4; -(1/2); 0] u u'.
Proof. intros Ea Eb Hb E H; left; rewrite Ea, Eb; split; [exact Hb|]; rewrite E, clamp_in by exact H; reflexivity. Qed.
Example C77_example : curve_inversion parab_obj (fin [1/4; -(1/2); 0]) (Fin (1/100) : Exact) (Fin 0 : Exact) 5 = Ok (Fin (1/8) : Exact).
Proof.
  destruct (initial_guess_spec parab_obj [1/4; -(1/2); 0] (fun i => parab (IZR i / IZR (2 * 1 - 1))) 1 eq_refl ltac:(lia)) as (k & Hk & EG & HB & _).
  { intros i Hi; split; reflexivity. }
  assert (k = 0%Z).
  { destruct (Z.eq_dec k 1) as [->|]; [|lia]; exfalso; destruct HB as [HB _].
    - exists 0%Z; split; [lia|]; apply Rle_lt_trans with 1; [|lra]; unfold distR, subR, parab; cbn [combine map fst snd].
      apply norm_le; [lra|]; change (IZR (2 * 1 - 1)) with 1; replace (0 / 1) with 0 by lra; lra.
    - specialize (HB 0%Z ltac:(lia)); revert HB; apply Rlt_not_le; unfold distR, subR, parab; cbn [combine map fst snd].
      apply Rle_lt_trans with (6/10); [apply norm_le|apply norm_gt]; try lra; change (IZR (2 * 1 - 1)) with 1; cbv beta; replace (0 / 1) with 0 by lra; replace (1 / 1) with 1 by lra; lra. }
  subst k; replace (IZR 0 / IZR (2 * 1 - 1)) with (iterates 0) in EG by (cbn; lra).
  destruct (C77_trace parab_obj parab parab_1 parab_2 [1/4; -(1/2); 0] (1/100) 0 parab_proper eq_refl 5 iterates ltac:(cbn; lra) EG) as [_ T].
  refine (proj1 (T _ 1%nat ltac:(lia) _) _ _); clear T EG HB.
  - cbn [iterates]; intros [H|H]; [revert H; apply Rlt_not_le; vecn; apply norm_gt; lra|revert H; apply not_right; vecs; lra].
  - intros i Hi; replace i with O by lia; cbn [iterates]; split.
    + apply (parab_step _ _ (-(1/4)) 2); try lra; vecs; lra.
    + intros [H|[H|H]].
      * revert H; apply Rlt_not_le; unfold parab_1; apply Rlt_le_trans with ((1/2) * (1/8)); [lra|]; rewrite Rabs_pos_eq, Rminus_0_r by lra.
        apply Rmult_le_compat_r; [lra|]; left; vecn; apply norm_gt; lra.
      * revert H; apply Rlt_not_le; vecn; apply norm_gt; lra.
      * revert H; apply not_right; vecs; lra.
  - cbn [iterates]; apply (parab_step _ _ (1/256) (67/32)); try lra; vecs; lra.
  - cbn [iterates]; left; apply Rle_trans with (2 * (1/100/2)); [|lra]; apply Rmult_le_compat; [apply normR_nonneg|apply Rabs_pos|vecn; apply norm_le; lra|].
    rewrite Rabs_left1; lra.
Qed.
(** A step of 0/0: the point (0, 1/2, 0) seen from the guess at the centre of
    curvature is covered by the last case of C77_trace. *)
Example C77_singular : slope parab parab_1 [0; 1/2; 0] 0 = 0 /\ curvature parab parab_1 parab_2 [0; 1/2; 0] 0 = 0.
Proof. split; vecs; lra. Qed.

(** ** C78: surfaces *)
(** Iterate k+1 is computed from iterate k with the derivatives at iterate k-1
    (at the guess for k = 0, 1); the first accepted iterate is returned, or
    iterate max_iter + 1; LinAlgError where the matrix is singular. *)
Theorem C78_trace : forall (s : surf_beh Exact) pt du dv duu dvv duv Q e1 e2, proper_surface s pt du dv duu dvv duv -> length Q = 3%nat ->
  forall mi (x : nat -> R * R), 0 <= fst (x O) <= 1 /\ 0 <= snd (x O) <= 1 ->
  initial_guess_surf s (fin Q) = Ok (Fin (fst (x O)) : Exact, Fin (snd (x O)) : Exact) ->
  let run := surface_inversion s (fin Q) (Fin e1 : Exact) (Fin e2 : Exact) (Z.of_nat mi) in
  let step k := surf_step pt du dv duu dvv duv Q (x (pred k)) (x k) (x (S k)) in
  let stop k := surf_stop pt du dv Q e1 e2 (x (pred k)) (x k) (x (S k)) in
  let near0 := surf_near (at2 du (x O)) (at2 dv (x O)) (subR (at2 pt (x O)) Q) e1 e2 in
  (near0 -> run = Ok (Fin (fst (x O)) : Exact, Fin (snd (x O)) : Exact)) /\
  (~ near0 -> forall k, (k <= mi)%nat -> (forall i, (i < k)%nat -> step i /\ ~ stop i) ->
     (step k -> stop k \/ k = mi -> run = Ok (Fin (fst (x (S k))) : Exact, Fin (snd (x (S k))) : Exact)) /\
     (m_det pt du dv duu dvv duv Q (x (pred k)) (x k) = 0 -> run = Err LinAlgError)).
Proof. exact surf_trace. Qed.
Print Assumptions C78_trace.
Theorem C78_cases : forall pt du dv duu dvv duv Q d w,
  (exists w', surf_step pt du dv duu dvv duv Q d w w') \/ m_det pt du dv duu dvv duv Q d w = 0.
Proof. exact surf_step_exists. Qed.
Print Assumptions C78_cases.
(** For the package's surfaces of degrees at least 2 the system solved is Newton's
    for the gradient of half the squared distance, if the derivatives are those
    at the current pair (d = w). *)
Theorem C78_newton : forall p q nu nv U V P,
  clamped (Z.of_nat p) (Z.of_nat nu) U -> clamped (Z.of_nat q) (Z.of_nat nv) V ->
  strict (Z.of_nat p) (Z.of_nat nu) U -> strict (Z.of_nat q) (Z.of_nat nv) V ->
  kn U (Z.of_nat p) = 0 -> kn U (Z.of_nat nu) = 1 -> kn V (Z.of_nat q) = 0 -> kn V (Z.of_nat nv) = 1 ->
  (2 <= p)%nat -> (2 <= q)%nat -> Forall (fun row => length row = 3%nat) P -> length P = (nu * nv)%nat ->
  exists pt du dv duu dvv duv, proper_surface (beh_of_surf (surf_of p q nu nv U V P)) pt du dv duu dvv duv /\
    forall u v s t Q, 0 <= u <= 1 -> 0 <= v <= 1 -> find_span (Z.of_nat nu) (Z.of_nat p) (Fin u : Exact) (fin U) = Ok s ->
      find_span (Z.of_nat nv) (Z.of_nat q) (Fin v : Exact) (fin V) = Ok t -> length Q = 3%nat ->
    let E := half_sq2 (fun c => surface_piece U V s t p q nu nv (coords c P)) Q in
    exists gu gv guu gvv guv, mixed_partial 1 0 E gu /\ mixed_partial 0 1 E gv /\ mixed_partial 2 0 E guu /\ mixed_partial 0 2 E gvv /\ mixed_partial 1 1 E guv /\
      dotR (subR (pt u v) Q) (du u v) = gu u v /\ dotR (subR (pt u v) Q) (dv u v) = gv u v /\
      m_uu pt du duu Q (u, v) (u, v) = guu u v /\ m_vv pt dv dvv Q (u, v) (u, v) = gvv u v /\ m_uv pt du dv duv Q (u, v) (u, v) = guv u v.
Proof. exact surf_newton_true. Qed.
Print Assumptions C78_newton.
Example C78_newton_hypotheses : let P := map (fun k => [IZR (k / 3) / 2; IZR (k mod 3) / 2; IZR (k * k)]) [0%Z; 1%Z; 2%Z; 3%Z; 4%Z; 5%Z; 6%Z; 7%Z; 8%Z] in let U := [0; 0; 0; 1; 1; 1] in
  clamped (Z.of_nat 2) (Z.of_nat 3) U /\ strict (Z.of_nat 2) (Z.of_nat 3) U /\ kn U (Z.of_nat 2) = 0 /\ kn U (Z.of_nat 3) = 1 /\
  Forall (fun row => length row = 3%nat) P /\ length P = (3 * 3)%nat.
Proof.
  cbv zeta; change (Z.of_nat 3) with 3%Z; change (Z.of_nat 2) with 2%Z.
  split; [solve_clamped|]; split; [intros i Hi; assert (i = 2%Z) by lia; subst i; kn_eval; lra|]; split; [kn_eval; lra|]; split; [kn_eval; lra|].
  split; [repeat constructor|reflexivity].
Qed.
(** The trough (u, v, u^2) and the point (1/4, 1/8, -1/2): the first step lands
    at (1/8, 1/8), next to the projection; the second, with the derivatives of
    the guess, moves away to (97/520, 1/8). *)
Definition trough (u v : R) : list R := [u; v; u * u].
Definition trough_u (u v : R) : list R := [1; 0; 2 * u].
Definition trough_v (_ _ : R) : list R := [0; 1; 0].
Definition trough_uu (_ _ : R) : list R := [0; 0; 2].
Definition flat0 (_ _ : R) : list R := [0; 0; 0].
Definition trough_obj : surf_beh Exact := mkSBeh (K := Exact) 1 1
  (fun u v => match u, v with Fin a, Fin b => Ok (fin (trough a b)) | _, _ => Ok [] end)
  (fun u v => match u, v with Fin a, Fin b => Ok (fin2 [trough a b; trough_v a b; flat0 a b; trough_u a b; flat0 a b; flat0 a b; trough_uu a b]) | _, _ => Ok [] end).
Lemma trough_proper : proper_surface trough_obj trough trough_u trough_v trough_uu flat0 flat0.
Proof.
  intros u v Hu Hv; do 7 (split; [reflexivity|]); exists (trough u v), (flat0 u v), []; reflexivity.
Qed.
Ltac vecn ::= unfold at2, trough, trough_u, trough_v, subR; cbn [combine map fst snd].
Definition iterates2 (k : nat) : R * R := match k with O => (0, 0) | 1%nat => (1/8, 1/8) | _ => (97/520, 1/8) end.
Ltac vecs2 := unfold m_det, m_uu, m_uv, m_vv, at2, trough, trough_u, trough_v, trough_uu, flat0, subR, dotR; cbn [combine map fold_right fst snd].
Example C78_example : surface_inversion trough_obj (fin [1/4; 1/8; -(1/2)]) (Fin (1/100) : Exact) (Fin 0 : Exact) 1
  = Ok (Fin (97/520) : Exact, Fin (1/8) : Exact).
Proof.
  destruct (initial_guess_surf_spec trough_obj [1/4; 1/8; -(1/2)] (fun i j => trough (IZR i / IZR (2 * 1 - 1)) (IZR j / IZR (2 * 1 - 1))) 1 1
    eq_refl eq_refl ltac:(lia) ltac:(lia)) as (k & l & Hk & Hl & EG & HB & _).
  { intros i j Hi Hj; split; reflexivity. }
  assert (k = 0 /\ l = 0)%Z as [-> ->].
  { destruct HB as [HB _].
    - exists 0%Z, 0%Z; split; [lia|]; split; [lia|]; apply Rle_lt_trans with 1; [|lra]; unfold distR, subR, trough; cbn [combine map fst snd].
      apply norm_le; [lra|]; change (IZR (2 * 1 - 1)) with 1; replace (0 / 1) with 0 by lra; lra.
    - specialize (HB 0%Z 0%Z ltac:(lia) ltac:(lia)).
      assert (Z1 : forall z, (0 <= z < 2 * 1)%Z -> z = 0%Z \/ z = 1%Z) by lia.
      destruct (Z1 k Hk) as [->| ->], (Z1 l Hl) as [->| ->]; try (split; reflexivity); exfalso; revert HB; apply Rlt_not_le; unfold distR, subR, trough; cbn [combine map fst snd];
        (apply Rle_lt_trans with (6/10); [apply norm_le|apply norm_gt]); try lra; change (IZR (2 * 1 - 1)) with 1; cbv beta; replace (0 / 1) with 0 by lra; replace (1 / 1) with 1 by lra; lra. }
  replace (IZR 0 / IZR (2 * 1 - 1)) with 0 in EG by lra.
  destruct (C78_trace trough_obj trough trough_u trough_v trough_uu flat0 flat0 [1/4; 1/8; -(1/2)] (1/100) 0 trough_proper eq_refl 1 iterates2
    ltac:(cbn; lra) EG) as [_ T].
  refine (proj1 (T _ 1%nat ltac:(lia) _) _ _); clear T EG HB.
  - cbn [iterates2]; intros [H|[H _]]; [revert H; apply Rlt_not_le; vecn; apply norm_gt; lra|revert H; apply not_right; vecs2; lra].
  - intros i Hi; replace i with O by lia; cbn [iterates2 pred]; split.
    + split; [vecs2; lra|]; exists (1/8), (1/8); vecs2; split; [lra|]; split; [lra|]; rewrite !clamp_in by lra; f_equal; lra.
    + intros [H|[H|[H _]]].
      * revert H; apply Rlt_not_le; vecn; apply norm_gt; lra.
      * revert H; apply Rlt_not_le; vecn; apply norm_gt; lra.
      * revert H; apply not_right; vecs2; lra.
  - cbn [iterates2 pred]; split; [vecs2; lra|]; exists (4/65), 0; vecs2; split; [lra|]; split; [lra|]; rewrite !clamp_in by lra; f_equal; lra.
  - right; reflexivity.
Qed.
