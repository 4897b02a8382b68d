(** Proofs for C118: the slope of the squared distance from a spline curve has a
    Lipschitz derivative, and the inversion converges quadratically. *)
From Verif Require Import Py Num ModelKnots ModelCurve ModelParam Spec SpecParam SpecNewton SpecSmooth ProofNum ProofInit ProofCurve ProofDers ProofDers2 ProofParam ProofParam3 ProofParam5 ProofParam6 ProofParam7 ProofParam8 ProofSmooth ProofConv.
From Coq Require Import Lra Lia.
Open Scope R_scope.

(** ** Lipschitz near a point *)
Definition lip (f : R -> R) (r : R) : Prop :=
  exists L e, 0 <= L /\ 0 < e /\ forall x y, Rabs (x - r) <= e -> Rabs (y - r) <= e -> Rabs (f x - f y) <= L * Rabs (x - y).
Lemma lip_ext f g r : (forall x, f x = g x) -> lip f r -> lip g r.
Proof. intros E (L & e & HL & He & H); exists L, e; split; [exact HL|]; split; [exact He|]; intros x y Hx Hy; rewrite <- !E; apply H; assumption. Qed.
Lemma lip_const a r : lip (fun _ => a) r.
Proof. exists 0, 1; split; [lra|]; split; [lra|]; intros x y _ _; unfold Rminus; rewrite Rplus_opp_r, Rabs_R0; lra. Qed.
Lemma lip_plus f g r : lip f r -> lip g r -> lip (fun x => f x + g x) r.
Proof.
  intros (L & e & HL & He & H) (M & d & HM & Hd & K); exists (L + M), (Rmin e d); split; [lra|]; split; [apply Rmin_pos; assumption|].
  intros x y Hx Hy; pose proof (Rmin_l e d); pose proof (Rmin_r e d).
  specialize (H x y ltac:(lra) ltac:(lra)); specialize (K x y ltac:(lra) ltac:(lra)).
  replace (f x + g x - (f y + g y)) with ((f x - f y) + (g x - g y)) by ring.
  eapply Rle_trans; [apply Rabs_triang|]; lra.
Qed.
Lemma lip_bounded f r : lip f r -> exists B e, 0 <= B /\ 0 < e /\ forall x, Rabs (x - r) <= e -> Rabs (f x) <= B.
Proof.
  intros (L & e & HL & He & H); exists (Rabs (f r) + L * e), e; split; [pose proof (Rabs_pos (f r)); nra|]; split; [exact He|].
  intros x Hx; specialize (H x r Hx ltac:(unfold Rminus; rewrite Rplus_opp_r, Rabs_R0; lra)).
  replace (f x) with (f r + (f x - f r)) by ring; eapply Rle_trans; [apply Rabs_triang|].
  apply Rplus_le_compat_l; eapply Rle_trans; [exact H|]; apply Rmult_le_compat_l; assumption.
Qed.
Lemma lip_mult f g r : lip f r -> lip g r -> lip (fun x => f x * g x) r.
Proof.
  intros Hf Hg; destruct (lip_bounded _ _ Hf) as (A & a & HA & Ha & BA); destruct (lip_bounded _ _ Hg) as (B & b & HB & Hb & BB).
  destruct Hf as (L & e & HL & He & H); destruct Hg as (M & d & HM & Hd & K).
  exists (A * M + B * L), (Rmin (Rmin a b) (Rmin e d)); split; [pose proof (Rmult_le_pos _ _ HA HM); pose proof (Rmult_le_pos _ _ HB HL); lra|].
  split; [repeat apply Rmin_pos; assumption|].
  intros x y Hx Hy; pose proof (Rmin_l (Rmin a b) (Rmin e d)); pose proof (Rmin_r (Rmin a b) (Rmin e d)); pose proof (Rmin_l a b); pose proof (Rmin_r a b); pose proof (Rmin_l e d); pose proof (Rmin_r e d).
  specialize (H x y ltac:(lra) ltac:(lra)); specialize (K x y ltac:(lra) ltac:(lra)).
  specialize (BA x ltac:(lra)); specialize (BB y ltac:(lra)).
  replace (f x * g x - f y * g y) with (f x * (g x - g y) + (f x - f y) * g y) by ring.
  eapply Rle_trans; [apply Rabs_triang|]; rewrite !Rabs_mult, Rmult_plus_distr_r; apply Rplus_le_compat.
  - rewrite Rmult_assoc; apply Rmult_le_compat; try apply Rabs_pos; assumption.
  - rewrite (Rmult_comm (Rabs (f x - f y))), Rmult_assoc; apply Rmult_le_compat; try apply Rabs_pos; assumption.
Qed.
(** A function with a continuous derivative. *)
Lemma lip_smooth f f1 r : (forall x, derivable_pt_lim f x (f1 x)) -> continuity_pt f1 r -> lip f r.
Proof.
  intros HD HC; destruct (HC 1 Rlt_0_1) as (e & He & E).
  exists (Rabs (f1 r) + 1), (e / 2); split; [pose proof (Rabs_pos (f1 r)); lra|]; split; [lra|].
  assert (B : forall x, Rabs (x - r) <= e / 2 -> Rabs (f1 x) <= Rabs (f1 r) + 1).
  { intros x Hx; destruct (Req_dec x r) as [->|N]; [lra|].
    assert (Rabs (f1 x - f1 r) < 1).
    { apply (E x); split; [split; [exact I|intros F; apply N; symmetry; exact F]|]; cbn [dist R_met]; unfold R_dist; lra. }
    replace (f1 x) with (f1 r + (f1 x - f1 r)) by ring; eapply Rle_trans; [apply Rabs_triang|]; lra. }
  intros x y Hx Hy; destruct (mean_value f f1 x y) as (v & Hv & Ev); [intros; apply HD|].
  rewrite Ev, Rabs_mult; apply Rmult_le_compat_r; [apply Rabs_pos|]; apply B.
  revert Hx Hy Hv; unfold Rmin, Rmax; destruct (Rle_dec x y); unfold Rabs; repeat destruct Rcase_abs; lra.
Qed.
(** Two pieces that meet. *)
Lemma lip_glue f f1 f2 a r b : a < r < b -> (forall x, a <= x <= r -> f x = f1 x) -> (forall x, r <= x <= b -> f x = f2 x) ->
  lip f1 r -> lip f2 r -> lip f r.
Proof.
  intros Hab E1 E2 (L & e & HL & He & H) (M & d & HM & Hd & K).
  exists (L + M), (Rmin (Rmin e d) (Rmin (r - a) (b - r))); split; [lra|]; split; [repeat apply Rmin_pos; lra|].
  pose proof (Rmin_l (Rmin e d) (Rmin (r - a) (b - r))); pose proof (Rmin_r (Rmin e d) (Rmin (r - a) (b - r))); pose proof (Rmin_l e d); pose proof (Rmin_r e d); pose proof (Rmin_l (r - a) (b - r)); pose proof (Rmin_r (r - a) (b - r)).
  assert (Z : Rabs (r - r) = 0) by (unfold Rminus; rewrite Rplus_opp_r; apply Rabs_R0).
  assert (W : forall x y, x <= y -> Rabs (x - r) <= Rmin (Rmin e d) (Rmin (r - a) (b - r)) -> Rabs (y - r) <= Rmin (Rmin e d) (Rmin (r - a) (b - r)) ->
    Rabs (f x - f y) <= (L + M) * Rabs (x - y)).
  { intros x y Hxy Hx Hy.
    assert (Ix : a <= x <= b) by (revert Hx; unfold Rabs; destruct Rcase_abs; lra).
    assert (Iy : a <= y <= b) by (revert Hy; unfold Rabs; destruct Rcase_abs; lra).
    pose proof (Rabs_pos (x - y)) as P.
    destruct (Rle_dec y r) as [Ly|Ly].
    - rewrite !E1 by lra; specialize (H x y ltac:(lra) ltac:(lra)); pose proof (Rmult_le_pos _ _ HM P); lra.
    - destruct (Rle_dec x r) as [Lx|Lx].
      + specialize (H x r ltac:(lra) ltac:(lra)); specialize (K r y ltac:(lra) ltac:(lra)).
        rewrite <- !E1 in H by lra; rewrite <- !E2 in K by lra.
        replace (f x - f y) with ((f x - f r) + (f r - f y)) by ring; eapply Rle_trans; [apply Rabs_triang|].
        rewrite (Rabs_left1 (x - r)) in H by lra; rewrite (Rabs_left1 (r - y)) in K by lra; rewrite (Rabs_left1 (x - y)) by lra.
        assert (L * (y - r) >= 0) by (apply Rle_ge, Rmult_le_pos; lra); assert (M * (r - x) >= 0) by (apply Rle_ge, Rmult_le_pos; lra); lra.
      + rewrite !E2 by lra; specialize (K x y ltac:(lra) ltac:(lra)); pose proof (Rmult_le_pos _ _ HL P); lra. }
  intros x y Hx Hy; destruct (Rle_dec x y) as [Hxy|Hxy]; [apply W; assumption|].
  rewrite (Rabs_minus_sym (f x)), (Rabs_minus_sym x); apply W; try assumption; lra.
Qed.

(** ** Spline curves *)
Section Rows.
Variables (p : nat) (n : Z) (U : list R).
Hypotheses (HC : clamped (Z.of_nat p) n U) (HS : strict (Z.of_nat p) n U) (H0 : kn U (Z.of_nat p) = 0) (H1 : kn U n = 1) (HW : wide_end n U).
Lemma row_at_lip k c u : (k < p)%nat -> 0 < u < 1 -> lip (row_at p n U k c) u.
Proof.
  intros Hk Hu; assert (HU : nondecreasing U) by apply HC; destruct (two_spans p n U HC HS H0 H1 u Hu) as (s & t & Is & It & Cs & Ct).
  apply (lip_glue (row_at p n U k c) (curve_ders U s p k c) (curve_ders U t p k c) (kn U s) u (kn U (t + 1))); try lra.
  - intros x Hx; apply row_at_span; try assumption; try lia; lra.
  - intros x Hx; apply row_at_span; try assumption; try lia; lra.
  - apply (lip_smooth _ (curve_ders U s p (S k) c)); [intros x; apply curve_ders_derivable; exact HU|].
    apply derivable_continuous_pt; eexists; apply curve_ders_derivable; exact HU.
  - apply (lip_smooth _ (curve_ders U t p (S k) c)); [intros x; apply curve_ders_derivable; exact HU|].
    apply derivable_continuous_pt; eexists; apply curve_ders_derivable; exact HU.
Qed.
End Rows.
Section Spline.
Variables (p : nat) (U : list R) (P : list (list R)) (d : Z).
Hypotheses (HC : clamped (Z.of_nat p) (len P) U) (HS : strict (Z.of_nat p) (len P) U) (H0 : kn U (Z.of_nat p) = 0) (H1 : kn U (len P) = 1)
  (HW : wide_end (len P) U) (HF : Forall (fun row => length row = 3%nat) P) (Hp : (3 <= p)%nat).
Let f (k c : nat) := row_at p (len P) U k (coords c P).
Lemma row_cols k u : curve_row p U P (Z.of_nat k) u = [f k 0 u; f k 1 u; f k 2 u].
Proof. rewrite curve_row_pieces, Nat2Z.id; reflexivity. Qed.
Variables (q0 q1 q2 : R).
Let Q := [q0; q1; q2].
Let g := slope (curve_row p U P 0) (curve_row p U P 1) Q.
Let h := curvature (curve_row p U P 0) (curve_row p U P 1) (curve_row p U P 2) Q.
Lemma g_cols u : g u = f 1 0 u * (f 0 0 u + - q0) + f 1 1 u * (f 0 1 u + - q1) + f 1 2 u * (f 0 2 u + - q2).
Proof.
  unfold g, Q, slope; change 1%Z with (Z.of_nat 1); change 0%Z with (Z.of_nat 0); rewrite !row_cols; unfold subR; cbn [combine map fst snd]; rewrite dot3; unfold Rminus; reflexivity.
Qed.
Lemma h_cols u : h u = (f 2 0 u * (f 0 0 u + - q0) + f 2 1 u * (f 0 1 u + - q1) + f 2 2 u * (f 0 2 u + - q2)) + (f 1 0 u * f 1 0 u + f 1 1 u * f 1 1 u + f 1 2 u * f 1 2 u).
Proof.
  unfold h, Q, curvature; change 2%Z with (Z.of_nat 2); change 1%Z with (Z.of_nat 1); change 0%Z with (Z.of_nat 0); rewrite !row_cols; unfold subR; cbn [combine map fst snd]; rewrite !dot3; unfold Rminus; reflexivity.
Qed.
Lemma h_lip u : 0 < u < 1 -> lip h u.
Proof.
  intros Hu; apply (lip_ext _ _ _ (fun x => eq_sym (h_cols x))).
  assert (A : forall k c, (k < 3)%nat -> lip (f k c) u) by (intros k c Hk; apply row_at_lip; try assumption; lia).
  assert (B : forall c q, lip (fun x => f 0 c x + - q) u) by (intros c q; apply (lip_plus (f 0 c) (fun _ => - q)); [apply A; lia|apply lip_const]).
  repeat apply (lip_plus (fun _ => _) (fun _ => _)); apply (lip_mult (fun _ => _) (fun _ => _)); try (apply B); apply A; lia.
Qed.
Lemma g_derivable u : 0 < u < 1 -> derivable_pt_lim g u (h u).
Proof.
  intros Hu; apply (derivable_pt_lim_ext _ _ _ _ (fun x => eq_sym (g_cols x))).
  assert (A : forall k c, (k < 2)%nat -> derivable_pt_lim (f k c) u (f (S k) c u)) by (intros k c Hk; apply row_at_derivable; try assumption; lia).
  assert (B : forall c q, derivable_pt_lim (fun x => f 0 c x + - q) u (f 1 c u + 0)).
  { intros c q; apply (derivable_pt_lim_plus (f 0 c) (fun _ => - q)); [apply A; lia|apply derivable_pt_lim_const]. }
  rewrite h_cols.
  assert (M : forall c q, derivable_pt_lim (fun x => f 1 c x * (f 0 c x + - q)) u (f 2 c u * (f 0 c u + - q) + f 1 c u * (f 1 c u + 0))).
  { intros c q; apply (derivable_pt_lim_mult (f 1 c) (fun x => f 0 c x + - q)); [apply A; lia|apply B]. }
  match goal with |- derivable_pt_lim _ _ ?l => replace l with
    (((f 2 0 u * (f 0 0 u + - q0) + f 1 0 u * (f 1 0 u + 0)) + (f 2 1 u * (f 0 1 u + - q1) + f 1 1 u * (f 1 1 u + 0))) + (f 2 2 u * (f 0 2 u + - q2) + f 1 2 u * (f 1 2 u + 0))) by ring end.
  apply (derivable_pt_lim_plus (fun _ => _) (fun _ => _)); [apply (derivable_pt_lim_plus (fun _ => _) (fun _ => _))|]; apply M.
Qed.
Lemma converge_near r : 0 < r < 1 -> g r = 0 -> h r <> 0 ->
  exists del m, 0 < del /\ 0 < m /\ forall e1 e2 mi x0, initial_guess_curve (beh_of_curve3 (curve_of (Z.of_nat p) U P d)) (fin Q) = Ok (Fin x0 : Exact) -> Rabs (x0 - r) <= del ->
  exists u k, curve_inversion (beh_of_curve3 (curve_of (Z.of_nat p) U P d)) (fin Q) (Fin e1 : Exact) (Fin e2 : Exact) (Z.of_nat mi) = Ok (Fin u : Exact) /\
    0 <= u <= 1 /\ (k <= S (S mi))%nat /\ Rabs (u - r) <= (1 / 2) ^ (Nat.pow 2 k - 1) * Rabs (x0 - r) /\
    (k = S (S mi) \/ curve_near (curve_row p U P 1 u) (subR (curve_row p U P 0 u) Q) e1 e2 \/ normR (curve_row p U P 1 u) * Rabs (u - r) <= 2 * e1 \/
     exists u', curve_step (curve_row p U P 0) (curve_row p U P 1) (curve_row p U P 2) Q u u' /\ 0 <= u' <= 1 /\ Rabs (u' - r) <= 1 / 2 * Rabs (u - r) /\ m * Rabs (u' - r) <= Rabs (g u') /\ curve_near (curve_row p U P 1 u') (subR (curve_row p U P 0 u') Q) e1 e2).
Proof.
  intros Hr Hg Hh; destruct (h_lip r Hr) as (L & e & HL & He & K).
  set (m := Rabs (h r) / 2); assert (Hm : 0 < m) by (unfold m; pose proof (Rabs_pos_lt _ Hh); lra).
  set (del := Rmin (Rmin e (m / (2 * (L + 1)))) (Rmin (r / 2) ((1 - r) / 2))).
  assert (P1 : 0 < m / (2 * (L + 1))) by (apply Rdiv_lt_0_compat; lra).
  assert (Hdel : 0 < del) by (unfold del; repeat apply Rmin_pos; lra).
  assert (B1 : del <= e /\ del <= m / (2 * (L + 1)) /\ del <= r / 2 /\ del <= (1 - r) / 2).
  { unfold del; pose proof (Rmin_l (Rmin e (m / (2 * (L + 1)))) (Rmin (r / 2) ((1 - r) / 2))); pose proof (Rmin_r (Rmin e (m / (2 * (L + 1)))) (Rmin (r / 2) ((1 - r) / 2)));
    pose proof (Rmin_l e (m / (2 * (L + 1)))); pose proof (Rmin_r e (m / (2 * (L + 1)))); pose proof (Rmin_l (r / 2) ((1 - r) / 2)); pose proof (Rmin_r (r / 2) ((1 - r) / 2)); lra. }
  assert (B2 : (L + 1) * del <= m / 2).
  { apply Rle_trans with ((L + 1) * (m / (2 * (L + 1)))); [apply Rmult_le_compat_l; lra|]; right; field; lra. }
  assert (In : forall u, Rabs (u - r) <= del -> 0 < u < 1) by (intros u; unfold Rabs; destruct Rcase_abs; lra).
  exists del, m; split; [exact Hdel|]; split; [exact Hm|]; intros e1 e2 mi x0 EG Hx0.
  apply (inversion_square (beh_of_curve3 (curve_of (Z.of_nat p) U P d)) (curve_row p U P 0) (curve_row p U P 1) (curve_row p U P 2) Q e1 e2 mi
    (curve_proper p U P d HC HS H0 H1 ltac:(lia) HF) eq_refl r del m ltac:(lra) Hg Hm) with (L := L); try assumption; try (apply In in Hx0; lra).
  - intros u Hu Hb; split; [apply g_derivable, In; exact Hb|]; fold h.
    specialize (K u r ltac:(lra) ltac:(unfold Rminus; rewrite Rplus_opp_r, Rabs_R0; lra)).
    pose proof (Rabs_triang_inv (h r) (h u)) as T; rewrite (Rabs_minus_sym (h r)) in T.
    assert (L * Rabs (u - r) <= L * del) by (apply Rmult_le_compat_l; assumption).
    assert (L * del <= m / 2) by nra.
    assert (Rabs (h r) = 2 * m) by (unfold m; field); lra.
  - intros v w _ _ Hv Hw; apply K; lra.
Qed.
End Spline.
Lemma proper_curve_unique c pt d1 d2 pt' d1' d2' u : proper_curve c pt d1 d2 -> proper_curve c pt' d1' d2' -> 0 <= u <= 1 -> pt u = pt' u /\ d1 u = d1' u /\ d2 u = d2' u.
Proof.
  intros [H _] [H' _] Hu; destruct (H u Hu) as (E & _ & _ & _ & rest & D); destruct (H' u Hu) as (_ & _ & _ & _ & rest' & D').
  rewrite D in D'; injection D' as A B C _; repeat split; apply fin_inj; assumption.
Qed.
Lemma curve_converges p U P d : clamped (Z.of_nat p) (len P) U -> strict (Z.of_nat p) (len P) U -> kn U (Z.of_nat p) = 0 -> kn U (len P) = 1 ->
  wide_end (len P) U -> Forall (fun row => length row = 3%nat) P -> (3 <= p)%nat ->
  forall pt d1 d2 Q r, proper_curve (beh_of_curve3 (curve_of (Z.of_nat p) U P d)) pt d1 d2 -> length Q = 3%nat -> 0 < r < 1 -> slope pt d1 Q r = 0 -> curvature pt d1 d2 Q r <> 0 ->
    exists del m, 0 < del /\ 0 < m /\ forall e1 e2 mi x0, initial_guess_curve (beh_of_curve3 (curve_of (Z.of_nat p) U P d)) (fin Q) = Ok (Fin x0 : Exact) -> Rabs (x0 - r) <= del ->
    exists u k, curve_inversion (beh_of_curve3 (curve_of (Z.of_nat p) U P d)) (fin Q) (Fin e1 : Exact) (Fin e2 : Exact) (Z.of_nat mi) = Ok (Fin u : Exact) /\
      0 <= u <= 1 /\ (k <= S (S mi))%nat /\ Rabs (u - r) <= (1 / 2) ^ (Nat.pow 2 k - 1) * Rabs (x0 - r) /\
      (k = S (S mi) \/ curve_near (d1 u) (subR (pt u) Q) e1 e2 \/ normR (d1 u) * Rabs (u - r) <= 2 * e1 \/
       exists u', curve_step pt d1 d2 Q u u' /\ 0 <= u' <= 1 /\ Rabs (u' - r) <= 1 / 2 * Rabs (u - r) /\ m * Rabs (u' - r) <= Rabs (slope pt d1 Q u') /\ curve_near (d1 u') (subR (pt u') Q) e1 e2).
Proof.
  intros HC HS H0 H1 HW HF Hp pt d1 d2 Q r HP LQ Hr Hg Hh.
  assert (Eq : forall u, 0 <= u <= 1 -> pt u = curve_row p U P 0 u /\ d1 u = curve_row p U P 1 u /\ d2 u = curve_row p U P 2 u).
  { intros u Hu; apply (proper_curve_unique _ _ _ _ _ _ _ u HP); [apply curve_proper; try assumption; lia|exact Hu]. }
  destruct (Eq r ltac:(lra)) as (Er0 & Er1 & Er2).
  destruct Q as [|q0 [|q1 [|q2 [|]]]]; try discriminate LQ.
  destruct (converge_near p U P d HC HS H0 H1 HW HF Hp q0 q1 q2 r Hr) as (del & m & Hdel & Hm & C).
  - rewrite <- Hg; unfold slope; rewrite Er0, Er1; reflexivity.
  - intros E; apply Hh; rewrite <- E; unfold curvature; rewrite Er0, Er1, Er2; reflexivity.
  - exists del, m; split; [exact Hdel|]; split; [exact Hm|]; intros e1 e2 mi x0 EG Hx0.
    destruct (C e1 e2 mi x0 EG Hx0) as (u & k & R1 & R2 & R3 & R4 & R5).
    exists u, k; split; [exact R1|]; split; [exact R2|]; split; [exact R3|]; split; [exact R4|].
    destruct (Eq u R2) as (E0 & E1 & E2); rewrite E0, E1; destruct R5 as [R5|[R5|[R5|(u' & S0 & S1 & S2 & S3 & S4)]]]; [left; exact R5|right; left; exact R5|right; right; left; exact R5|right; right; right].
    exists u'; split; [unfold curve_step, slope, curvature in *; rewrite E0, E1, E2; exact S0|]; split; [exact S1|]; split; [exact S2|]; unfold slope in *; destruct (Eq u' S1) as (-> & -> & _); split; [exact S3|exact S4].
Qed.
