(** [basis_functions] (model: ModelBasis.v) on binary64 numbers: no overflow, no
    NaN, no negative value, and a bound on the rounding errors. *)
From Coq Require Import Reals Lra Lia ZArith List Floats.
From Flocq Require Import Core.Core.
From Verif Require Import Py PyLemmas Num ModelBasis Spec SpecB64 MathCox MathKnots ProofBasis ProofB64.
Import ListNotations.
Open Scope R_scope.

(** ** Errors of products *)
Lemma factor_mul u a b x y : 0 < u -> 0 <= x -> 0 <= y ->
  Rabs (a - 1) <= x * u -> Rabs (b - 1) <= y * u -> Rabs (a * b - 1) <= (x + y + x * y * u) * u.
Proof.
  intros Hu Hx Hy Ha Hb.
  replace (a * b - 1) with ((a - 1) + (b - 1) + (a - 1) * (b - 1)) by ring.
  apply Rle_trans with (1 := Rabs_triang _ _).
  apply Rle_trans with (x * u + y * u + (x * u) * (y * u)).
  - apply Rplus_le_compat.
    + apply Rle_trans with (1 := Rabs_triang _ _); lra.
    + rewrite Rabs_mult; apply Rmult_le_compat; try apply Rabs_pos; assumption.
  - right; ring.
Qed.

(** One division step of the triangle: [L], [R] exact distances, [n] the exact
    and [m] the computed value of the lower degree. *)
Section Step.
Variables (u h L Q n m : R).
Hypothesis Hu : 0 < u <= /1000.
Hypothesis Hh : 0 <= h.
Hypothesis HL : 0 <= L <= 1.
Hypothesis HR : 0 <= Q <= 1.
Hypothesis Hd : 0 < Q + L.
Hypothesis Hn : 0 <= n.
Hypothesis Hm : 0 <= m.
Variables (e1 e2 e3 : R).
Hypothesis H1 : Rabs e1 <= u.
Hypothesis H2 : Rabs e2 <= u.
Hypothesis H3 : Rabs e3 <= u.
Let L' := L * (1 + e1).
Let Q' := Q * (1 + e2).
Let d' := (Q' + L') * (1 + e3).

Lemma d'_bounds : (Q + L) * ((1 - u) * (1 - u)) <= d' <= (Q + L) * ((1 + u) * (1 + u)).
Proof.
  apply Rabs_le_inv in H1; apply Rabs_le_inv in H2; apply Rabs_le_inv in H3; unfold d', L', Q'.
  assert (A : (Q + L) * (1 - u) <= Q * (1 + e2) + L * (1 + e1) <= (Q + L) * (1 + u)) by nra.
  split.
  - apply Rle_trans with ((Q + L) * (1 - u) * (1 - u)); [right; ring|].
    apply Rmult_le_compat; nra.
  - apply Rle_trans with ((Q + L) * (1 + u) * (1 + u)); [|right; ring].
    apply Rmult_le_compat; nra.
Qed.
Lemma d'_pos : 0 < d'.
Proof. apply Rlt_le_trans with (2 := proj1 d'_bounds); apply Rmult_lt_0_compat; nra. Qed.
Lemma d'_half : (Q + L) / 2 <= d'.
Proof. apply Rle_trans with (2 := proj1 d'_bounds); nra. Qed.

Lemma ratio_err : Rabs ((Q + L) / d' - 1) <= (21 / 10) * u.
Proof.
  pose proof d'_bounds as [B1 B2]; pose proof d'_pos as P.
  replace ((Q + L) / d' - 1) with ((Q + L - d') * / d') by (field; lra).
  rewrite Rabs_mult, (Rabs_right (/ d')) by (apply Rle_ge, Rlt_le, Rinv_0_lt_compat; exact P).
  apply (Rmult_le_reg_r d'); [exact P|]; rewrite Rmult_assoc, Rinv_l, Rmult_1_r by lra.
  apply Rabs_le; nra.
Qed.

(** Computed product of one of the distances with the quotient. *)
Lemma product_err X e e4 h4 e5 h5 : 0 <= X <= 1 -> Rabs e <= u -> Rabs e4 <= u -> Rabs e5 <= u ->
  Rabs h4 <= h -> Rabs h5 <= h ->
  Rabs ((X * (1 + e)) * (m / d' * (1 + e4) + h4) * (1 + e5) + h5 - X * (n / (Q + L)))
   <= X / (Q + L) * ((1 + (11/2) * u) * Rabs (m - n) + (11/2) * u * n) + (21/10) * h.
Proof.
  intros HX He He4 He5 Hh4 Hh5; pose proof d'_pos as P.
  set (f := (1 + e) * (1 + e4) * (1 + e5) * ((Q + L) / d')).
  assert (Ff : Rabs (f - 1) <= (11/2) * u).
  { assert (C : forall z, Rabs z <= u -> Rabs (1 + z - 1) <= 1 * u) by (intros z Hz; replace (1 + z - 1) with z by ring; lra).
    pose proof (factor_mul u _ _ 1 1 (proj1 Hu) ltac:(lra) ltac:(lra) (C e He) (C e4 He4)) as F1.
    assert (F1' : Rabs ((1 + e) * (1 + e4) - 1) <= (201/100) * u) by (eapply Rle_trans; [exact F1|apply Rmult_le_compat_r; nra]).
    pose proof (factor_mul u _ _ (201/100) 1 (proj1 Hu) ltac:(lra) ltac:(lra) F1' (C e5 He5)) as F2.
    assert (F2' : Rabs ((1 + e) * (1 + e4) * (1 + e5) - 1) <= (302/100) * u) by (eapply Rle_trans; [exact F2|apply Rmult_le_compat_r; nra]).
    pose proof (factor_mul u _ _ (302/100) (21/10) (proj1 Hu) ltac:(lra) ltac:(lra) F2' ratio_err) as F3.
    eapply Rle_trans; [exact F3|apply Rmult_le_compat_r; nra]. }
  set (q := X / (Q + L)); assert (Hq : 0 <= q) by (apply Rmult_le_pos; [lra|apply Rlt_le, Rinv_0_lt_compat; lra]).
  set (H := X * (1 + e) * h4 * (1 + e5) + h5).
  replace (X * (1 + e) * (m / d' * (1 + e4) + h4) * (1 + e5) + h5 - X * (n / (Q + L)))
    with (q * (f * (m - n) + (f - 1) * n) + H) by (unfold q, f, H; field; lra).
  apply Rle_trans with (1 := Rabs_triang _ _); apply Rplus_le_compat.
  - rewrite Rabs_mult, (Rabs_right q) by lra; apply Rmult_le_compat_l; [exact Hq|].
    apply Rle_trans with (1 := Rabs_triang _ _); apply Rplus_le_compat.
    + rewrite Rabs_mult; apply Rmult_le_compat_r; [apply Rabs_pos|].
      replace f with (1 + (f - 1)) by ring; apply Rle_trans with (1 := Rabs_triang _ _); rewrite Rabs_R1; lra.
    + rewrite Rabs_mult, (Rabs_right n) by lra; apply Rmult_le_compat_r; assumption.
  - unfold H; apply Rle_trans with (1 := Rabs_triang _ _).
    assert (Rabs (X * (1 + e) * h4 * (1 + e5)) <= (1002/1000) * (1001/1000) * h).
    { rewrite Rabs_mult, Rabs_mult, Rabs_mult.
      apply Rabs_le_inv in He; apply Rabs_le_inv in He5.
      rewrite (Rabs_right X), (Rabs_right (1 + e)), (Rabs_right (1 + e5)) by lra.
      pose proof (Rabs_pos h4).
      apply Rle_trans with (1 * (1001/1000) * h * (1001/1000)); [|nra].
      apply Rmult_le_compat; [|lra| |lra].
      - apply Rmult_le_pos; [nra|lra].
      - apply Rmult_le_compat; try nra; lra. }
    lra.
Qed.

(** Both products together, with room for the rounded additions. *)
Lemma step_err e4 h4 e5 h5 e6 h6 : Rabs e4 <= u -> Rabs e5 <= u -> Rabs e6 <= u ->
  Rabs h4 <= h -> Rabs h5 <= h -> Rabs h6 <= h ->
  let t := m / d' * (1 + e4) + h4 in
  (1 + u) * Rabs (Q' * t * (1 + e5) + h5 - Q * (n / (Q + L))) + u * (Q * (n / (Q + L))) +
  ((1 + u) * Rabs (L' * t * (1 + e6) + h6 - L * (n / (Q + L))) + u * (L * (n / (Q + L))))
  <= (1 + 7 * u) * Rabs (m - n) + 7 * u * n + 5 * h.
Proof.
  intros He4 He5 He6 Hh4 Hh5 Hh6 t.
  pose proof (product_err Q e2 e4 h4 e5 h5 HR H2 He4 He5 Hh4 Hh5) as A.
  pose proof (product_err L e1 e4 h4 e6 h6 HL H1 He4 He6 Hh4 Hh6) as B.
  unfold t, Q', L'; set (a := Rabs _) in A |- *; set (b := Rabs (L * (1 + e1) * _ * _ + _ - _)) in B |- *.
  set (w := (1 + 11 / 2 * u) * Rabs (m - n) + 11 / 2 * u * n) in *.
  assert (Hw : 0 <= w) by (unfold w; pose proof (Rabs_pos (m - n)); nra).
  assert (E1 : Q * (n / (Q + L)) + L * (n / (Q + L)) = n) by (field; lra).
  assert (E2 : Q / (Q + L) * w + L / (Q + L) * w = w) by (field; lra).
  assert (a + b <= w + (42/10) * h) by lra.
  apply Rle_trans with ((1 + u) * (w + 42/10 * h) + u * n); [nra|].
  unfold w; pose proof (Rabs_pos (m - n)) as Hz; set (z := Rabs (m - n)) in *.
  assert (0 <= u * z) by nra; assert (0 <= u * n) by nra.
  assert (u * (u * z) <= /1000 * (u * z)) by nra; assert (u * (u * n) <= /1000 * (u * n)) by nra.
  assert (u * h <= /1000 * h) by nra.
  replace ((1 + u) * ((1 + 11 / 2 * u) * z + 11 / 2 * u * n + 42 / 10 * h) + u * n)
    with (z + 13/2 * (u * z) + 11/2 * (u * (u * z)) + 13/2 * (u * n) + 11/2 * (u * (u * n)) + 42/10 * h + 42/10 * (u * h)) by field.
  lra.
Qed.
End Step.

(** ** One step on doubles *)
Lemma ulp64_small : 0 < ulp64 <= /1000.
Proof. split; [apply ulp64_pos|]; unfold ulp64; apply Rinv_le_contravar; lra. Qed.
Lemma two_bpow e : 2 * bpow radix2 e = bpow radix2 (1 + e).
Proof. rewrite bpow_plus; reflexivity. Qed.
Lemma half_bpow e : bpow radix2 e / 2 = bpow radix2 (-1 + e).
Proof. rewrite bpow_plus; change (bpow radix2 (-1)) with (/ 2); lra. Qed.

Lemma float_step (nr rr lj saved : PrimFloat.float) (L Q n S e1 e2 : R) :
  finite64 nr -> finite64 rr -> finite64 lj -> finite64 saved ->
  value lj = L * (1 + e1) -> Rabs e1 <= ulp64 -> value rr = Q * (1 + e2) -> Rabs e2 <= ulp64 ->
  0 <= L <= 1 -> 0 <= Q <= 1 -> 0 <= value lj <= 1 -> 0 <= value rr <= 1 ->
  bpow radix2 (-1000) <= Q + L -> 0 <= n -> 0 <= value nr <= 2 -> 0 <= value saved <= bpow radix2 1002 -> 0 <= S ->
  let temp := (nr / (rr + lj))%float in
  let new := (saved + rr * temp)%float in
  let saved' := (lj * temp)%float in
  finite64 new /\ 0 <= value new /\ finite64 saved' /\ 0 <= value saved' <= bpow radix2 1002 /\
  Rabs (value new - (S + Q * (n / (Q + L)))) +
    ((1 + ulp64) * Rabs (value saved' - L * (n / (Q + L))) + ulp64 * (L * (n / (Q + L))))
  <= (1 + ulp64) * Rabs (value saved - S) + ulp64 * S
     + ((1 + 7 * ulp64) * Rabs (value nr - n) + 7 * ulp64 * n + 5 * eta64).
Proof.
  intros Fn Fr Fl Fs El He1 Er He2 HL HQ Hl Hr Hd Hn Hnr Hs HS temp new saved'.
  pose proof ulp64_small as Hu; pose proof eta64_pos as Hh.
  assert (Hd0 : 0 < Q + L) by (apply Rlt_le_trans with (2 := Hd); apply bpow_gt_0).
  (* the denominator *)
  destruct (rnd_add_err (value rr) (value lj) (value_fmt _) (value_fmt _)) as (e3 & He3 & E3).
  destruct (add64 rr lj Fr Fl) as (Fd & Vd).
  { apply rnd_safe with 1%Z; [lia|]; change (bpow radix2 1) with 2; apply Rabs_le; lra. }
  set (d := (rr + lj)%float) in *.
  assert (Ed : value d = (Q * (1 + e2) + L * (1 + e1)) * (1 + e3)) by (rewrite Vd, E3, Er, El; reflexivity).
  assert (Dh : (Q + L) / 2 <= value d) by (rewrite Ed; apply (d'_half ulp64); assumption).
  assert (Dlow : bpow radix2 (-1001) <= value d).
  { apply Rle_trans with (2 := Dh); apply Rle_trans with (bpow radix2 (-1000) / 2); [|lra].
    rewrite half_bpow; right; reflexivity. }
  assert (Dpos : 0 < value d) by (apply Rlt_le_trans with (2 := Dlow); apply bpow_gt_0).
  (* the quotient *)
  assert (Hq0 : 0 <= value nr / value d) by (apply Rmult_le_pos; [lra|apply Rlt_le, Rinv_0_lt_compat; exact Dpos]).
  assert (Hq1 : value nr / value d <= bpow radix2 1002).
  { apply (Rmult_le_reg_r (value d)); [exact Dpos|]; unfold Rdiv; rewrite Rmult_assoc, Rinv_l, Rmult_1_r by lra.
    apply Rle_trans with 2; [lra|]; apply Rle_trans with (bpow radix2 1002 * bpow radix2 (-1001)).
    - rewrite <- bpow_plus; change (bpow radix2 (1002 + -1001)) with 2; lra.
    - apply Rmult_le_compat_l; [apply bpow_ge_0|exact Dlow]. }
  destruct (div64 nr d Fn Fd) as (Ft & Vt).
  { lra. }
  { apply rnd_safe with 1002%Z; [lia|]; apply Rabs_le; lra. }
  fold temp in Ft, Vt.
  assert (Ht : 0 <= value temp <= bpow radix2 1002).
  { rewrite Vt; split; [apply rnd_nonneg; exact Hq0|].
    apply Rle_trans with (1 := Rle_abs _); apply rnd_bound; [lia|apply Rabs_le; lra]. }
  (* the products *)
  assert (HP : forall y, finite64 y -> 0 <= value y <= 1 ->
     finite64 (y * temp) /\ value (y * temp) = rnd (value y * value temp) /\ 0 <= value (y * temp) <= bpow radix2 1002).
  { intros y Fy Hy.
    assert (B : 0 <= value y * value temp <= bpow radix2 1002) by nra.
    destruct (mul64 y temp Fy Ft) as (F & V).
    { apply rnd_safe with 1002%Z; [lia|]; apply Rabs_le; lra. }
    split; [exact F|split; [exact V|]]; rewrite V; split; [apply rnd_nonneg; lra|].
    apply Rle_trans with (1 := Rle_abs _); apply rnd_bound; [lia|apply Rabs_le; lra]. }
  destruct (HP rr Fr Hr) as (Fp & Vp & Bp); destruct (HP lj Fl Hl) as (Fs' & Vs' & Bs').
  (* the sum *)
  destruct (add64 saved (rr * temp)%float Fs Fp) as (Fnew & Vnew).
  { apply rnd_safe with 1003%Z; [lia|]; replace 1003%Z with (1 + 1002)%Z by lia; rewrite <- two_bpow; apply Rabs_le; lra. }
  fold new in Fnew, Vnew; fold saved' in Fs', Vs', Bs'.
  split; [exact Fnew|split; [rewrite Vnew; apply rnd_nonneg; lra|split; [exact Fs'|split; [exact Bs'|]]]].
  (* errors *)
  destruct (rnd_err (value nr / value d)) as (e4 & h4 & He4 & Hh4 & E4).
  destruct (rnd_err (value rr * value temp)) as (e5 & h5 & He5 & Hh5 & E5).
  destruct (rnd_err (value lj * value temp)) as (e6 & h6 & He6 & Hh6 & E6).
  destruct (rnd_add_err (value saved) (value (rr * temp)) (value_fmt _) (value_fmt _)) as (e7 & He7 & E7).
  rewrite <- Vt in E4; rewrite <- Vp in E5; rewrite <- Vs' in E6; rewrite <- Vnew in E7.
  pose proof (step_err ulp64 eta64 L Q n (value nr) Hu (Rlt_le _ _ Hh) HL HQ Hd0 Hn e1 e2 e3 He1 He2 He3
                e4 h4 e5 h5 e6 h6 He4 He5 He6 Hh4 Hh5 Hh6) as B; cbn zeta in B.
  rewrite <- Ed, <- E4, <- Er, <- El, <- E5, <- E6 in B.
  assert (C : Rabs (value new - (S + Q * (n / (Q + L)))) <=
     (1 + ulp64) * Rabs (value saved - S) + ulp64 * S +
     ((1 + ulp64) * Rabs (value (rr * temp) - Q * (n / (Q + L))) + ulp64 * (Q * (n / (Q + L))))).
  { set (P := Q * (n / (Q + L))); assert (HP0 : 0 <= P) by (unfold P; apply Rmult_le_pos; [lra|apply Rmult_le_pos; [lra|apply Rlt_le, Rinv_0_lt_compat; lra]]).
    rewrite E7; set (sv := value saved); set (pv := value (rr * temp)).
    replace ((sv + pv) * (1 + e7) - (S + P)) with ((1 + e7) * (sv - S) + e7 * S + ((1 + e7) * (pv - P) + e7 * P)) by ring.
    assert (A1 : Rabs (1 + e7) <= 1 + ulp64) by (apply Rle_trans with (1 := Rabs_triang _ _); rewrite Rabs_R1; lra).
    apply Rle_trans with (1 := Rabs_triang _ _); apply Rplus_le_compat;
      (apply Rle_trans with (1 := Rabs_triang _ _); apply Rplus_le_compat; rewrite Rabs_mult;
       [apply Rmult_le_compat_r; [apply Rabs_pos|exact A1]|]).
    - rewrite (Rabs_right S) by lra; apply Rmult_le_compat_r; assumption.
    - rewrite (Rabs_right P) by lra; apply Rmult_le_compat_r; assumption. }
  lra.
Qed.

(** ** The loops *)
Lemma value_0 : value (0%num : Binary64) = 0.
Proof. reflexivity. Qed.
Lemma finite_0 : finite64 (0%num : Binary64).
Proof. exact I. Qed.
Lemma SF_1 : FloatOps.Prim2SF (1%num : Binary64) = SpecFloat.S754_finite false 4503599627370496 (-52).
Proof. vm_compute; reflexivity. Qed.
Lemma value_1 : value (1%num : Binary64) = 1.
Proof.
  unfold value; rewrite SF_1; change 2 with (IZR radix2); rewrite <- bpow_powerRZ.
  change (bpow radix2 (-52)) with (/ 4503599627370496); lra.
Qed.
Lemma finite_1 : finite64 (1%num : Binary64).
Proof. unfold finite64; rewrite SF_1; exact I. Qed.

Lemma kn_values U i d : (0 <= i < len U)%Z -> kn (values U) i = value (nth (Z.to_nat i) U d).
Proof.
  intros Hi; unfold kn, values; rewrite (nth_indep _ _ (value d)) by (rewrite map_length; unfold len in Hi; lia).
  apply map_nth.
Qed.
Lemma within_nth a b U i d : within a b U -> (0 <= i < len U)%Z ->
  finite64 (nth (Z.to_nat i) U d) /\ a <= value (nth (Z.to_nat i) U d) <= b.
Proof.
  intros HW Hi; unfold within in HW; rewrite Forall_forall in HW; apply HW, nth_In; unfold len in Hi; lia.
Qed.
Lemma len_values U : len (values U) = len U.
Proof. unfold len, values; rewrite map_length; reflexivity. Qed.

Section Loops.
Variables (U : list Binary64) (s : Z) (x : Binary64) (p : nat).
Hypothesis HW : within 0 1 U.
Hypothesis HU : nondecreasing (values U).
Hypothesis Fx : finite64 x.
Hypothesis Hx : kn (values U) s <= value x <= kn (values U) (s + 1).
Hypothesis Hgap : bpow radix2 (-1000) <= kn (values U) (s + 1) - kn (values U) s.
Hypothesis Hlo : (Z.of_nat p - 1 <= s)%Z.
Hypothesis Hs0 : (0 <= s)%Z.
Hypothesis Hhi : (s + Z.of_nat p < len U)%Z.
Hypothesis Hhi1 : (s + 1 < len U)%Z.
Hypothesis Hp : INR p <= 2 ^ 40.

Notation k := (kn (values U)).
Notation N q i := (piece (values U) s q i (value x)).
Notation M q i := (Mx (delta s) (kn (values U)) q i (value x)).

Definition fU (i : Z) : Binary64 := nth (Z.to_nat i) U (0%num : Binary64).
Definition fL (r : Z) : Binary64 := nsub x (fU (s + 1 - r)).
Definition fR (r : Z) : Binary64 := nsub (fU (s + r)) x.

Lemma s_lt : k s < k (s + 1).
Proof. pose proof (bpow_gt_0 radix2 (-1000)); lra. Qed.
Lemma fU_val i : (0 <= i < len U)%Z -> finite64 (fU i) /\ value (fU i) = k i /\ 0 <= k i <= 1.
Proof.
  intros Hi; destruct (within_nth 0 1 U i (0%num : Binary64) HW Hi) as (F & B).
  unfold fU; rewrite (kn_values U i (0%num : Binary64) Hi); auto.
Qed.
Lemma x_range : 0 <= value x <= 1.
Proof.
  destruct (fU_val s ltac:(lia)) as (_ & _ & A); destruct (fU_val (s + 1) ltac:(lia)) as (_ & _ & B); lra.
Qed.
Lemma diff_ok (a b : Binary64) : finite64 a -> finite64 b -> 0 <= value a <= 1 -> 0 <= value b <= 1 -> value b <= value a ->
  finite64 (nsub a b) /\ 0 <= value (nsub a b) <= 1 /\
  exists e, Rabs e <= ulp64 /\ value (nsub a b) = (value a - value b) * (1 + e).
Proof.
  intros Fa Fb Ha Hb Hab; change (nsub a b) with (PrimFloat.sub a b).
  destruct (sub64 a b Fa Fb) as (F & V).
  { apply rnd_safe with 0%Z; [lia|]; change (bpow radix2 0) with 1; apply Rabs_le; lra. }
  destruct (rnd_sub_err (value a) (value b) (value_fmt _) (value_fmt _)) as (e & He & E).
  split; [exact F|split].
  - rewrite V; split; [apply rnd_nonneg; lra|].
    apply Rle_trans with (1 := Rle_abs _); apply (rnd_bound _ 0); [lia|change (bpow radix2 0) with 1; apply Rabs_le; lra].
  - exists e; split; [exact He|rewrite V; exact E].
Qed.
Lemma fL_ok r : (1 <= r <= s + 1)%Z ->
  finite64 (fL r) /\ 0 <= value (fL r) <= 1 /\ 0 <= value x - k (s + 1 - r) <= 1 /\
  exists e, Rabs e <= ulp64 /\ value (fL r) = (value x - k (s + 1 - r)) * (1 + e).
Proof.
  intros Hr; destruct (fU_val (s + 1 - r) ltac:(lia)) as (F & V & B); pose proof x_range as Bx.
  pose proof (kn_mono _ HU (s + 1 - r) s ltac:(lia)) as Mo.
  destruct (diff_ok x (fU (s + 1 - r)) Fx F Bx) as (F' & B' & E); [lra|lra|].
  rewrite V in E; split; [exact F'|split; [exact B'|split; [lra|exact E]]].
Qed.
Lemma fR_ok r : (1 <= r)%Z -> (s + r < len U)%Z ->
  finite64 (fR r) /\ 0 <= value (fR r) <= 1 /\ 0 <= k (s + r) - value x <= 1 /\
  exists e, Rabs e <= ulp64 /\ value (fR r) = (k (s + r) - value x) * (1 + e).
Proof.
  intros Hr Hr'; destruct (fU_val (s + r) ltac:(lia)) as (F & V & B); pose proof x_range as Bx.
  pose proof (kn_mono _ HU (s + 1) (s + r) ltac:(lia)) as Mo.
  destruct (diff_ok (fU (s + r)) x F Fx) as (F' & B' & E); [lra|lra|lra|].
  rewrite V in E; split; [exact F'|split; [exact B'|split; [lra|exact E]]].
Qed.

Definition bL (q : nat) : Z -> Binary64 := fun r => if ((1 <=? r) && (r <=? Z.of_nat q))%Z then fL r else 0%num.
Definition bR (q : nat) : Z -> Binary64 := fun r => if ((1 <=? r) && (r <=? Z.of_nat q))%Z then fR r else 0%num.

(** Errors of the first [n] entries of [f] as functions of degree [q]. *)
Definition err (q : nat) (n : nat) (f : Z -> Binary64) : R :=
  zsum 0 n (fun r => Rabs (value (f r) - N q (s - Z.of_nat q + r))).
Definition okN (q : nat) (f : Z -> Binary64) : Prop :=
  (forall r, (0 <= r <= Z.of_nat q)%Z -> finite64 (f r) /\ 0 <= value (f r)) /\
  err q (S q) f <= 8 * INR q * ulp64.

Lemma zsum_term n f i : (0 <= i < Z.of_nat n)%Z -> (forall j, 0 <= f j) -> f i <= zsum 0 n f.
Proof.
  induction n as [|n IH]; intros Hi Hf; [lia|]; cbn [zsum]; rewrite Z.add_0_l.
  destruct (Z.eq_dec i (Z.of_nat n)) as [->|].
  - pose proof (zsum_nonneg 0 n f (fun j _ => Hf j)); lra.
  - pose proof (IH ltac:(lia) Hf); pose proof (Hf (Z.of_nat n)); lra.
Qed.
Lemma N_nonneg q i : 0 <= N q i.
Proof. apply piece_nonneg; [exact HU|apply s_lt|exact Hx]. Qed.
Lemma N_le_1 q i : N q i <= 1.
Proof. apply piece_le_1; [exact HU|apply s_lt|exact Hx]. Qed.
Lemma small_err q : (q <= p)%nat -> 8 * INR q * ulp64 <= 1.
Proof.
  intros Hq; assert (INR q <= 2 ^ 40) by (apply le_INR in Hq; lra).
  assert (0 <= INR q) by apply pos_INR.
  unfold ulp64; apply (Rmult_le_reg_r (2 ^ 53)); [apply pow_lt; lra|].
  rewrite Rmult_assoc, Rinv_l by (apply pow_nonzero; lra).
  replace (2 ^ 53) with (2 ^ 40 * 2 ^ 13) by (rewrite <- pow_add; f_equal).
  assert (8 <= 2 ^ 13) by lra; assert (0 < 2 ^ 40) by (apply pow_lt; lra); nra.
Qed.

Definition exact_saved (q : nat) (r : Z) : R :=
  (value x - k (s - Z.of_nat (S q) + r)) * M q (s - Z.of_nat (S q) + r).

Lemma gap_q q i : (s - Z.of_nat q <= i <= s)%Z -> bpow radix2 (-1000) <= k (i + Z.of_nat q + 1) - value x + (value x - k i).
Proof.
  intros Hi; pose proof (kn_mono _ HU i s ltac:(lia)); pose proof (kn_mono _ HU (s + 1) (i + Z.of_nat q + 1) ltac:(lia)); lra.
Qed.
Lemma M_val q i : (s - Z.of_nat q <= i <= s)%Z -> M q i = N q i / (k (i + Z.of_nat q + 1) - value x + (value x - k i)).
Proof.
  intros Hi; pose proof (gap_q q i Hi); pose proof (bpow_gt_0 radix2 (-1000)).
  unfold Mx; rewrite sdiv_nz by lra; unfold piece; f_equal; ring.
Qed.
Lemma saved_nonneg q r : (0 <= r <= Z.of_nat (S q))%Z -> (S q <= p)%nat -> 0 <= exact_saved q r.
Proof.
  intros Hr Hq; unfold exact_saved.
  destruct (Z.eq_dec r 0) as [->|].
  - unfold Mx; rewrite cox_support by lia; rewrite sdiv_0_l; lra.
  - rewrite M_val by lia.
    pose proof (gap_q q (s - Z.of_nat (S q) + r) ltac:(lia)); pose proof (bpow_gt_0 radix2 (-1000)).
    pose proof (kn_mono _ HU (s - Z.of_nat (S q) + r) s ltac:(lia)).
    apply Rmult_le_pos; [lra|]; apply Rmult_le_pos; [apply N_nonneg|apply Rlt_le, Rinv_0_lt_compat; lra].
Qed.

(** Inside round [q+1], before step [r], starting from [f0]. *)
Definition inner_inv (q : nat) (f0 : Z -> Binary64) (r : Z) (st : list Binary64 * Binary64) : Prop :=
  exists f, fst st = tab (S p) f /\ (forall i, (r <= i)%Z -> f i = f0 i) /\
    (forall i, (0 <= i <= Z.of_nat q)%Z -> finite64 (f i) /\ 0 <= value (f i)) /\
    finite64 (snd st) /\ 0 <= value (snd st) <= bpow radix2 1002 /\
    err (S q) (Z.to_nat r) f + ((1 + ulp64) * Rabs (value (snd st) - exact_saved q r) + ulp64 * exact_saved q r)
    <= (1 + 7 * ulp64) * err q (Z.to_nat r) f0
       + 7 * ulp64 * zsum 0 (Z.to_nat r) (fun i => N q (s - Z.of_nat q + i)) + 5 * eta64 * INR (Z.to_nat r).

Lemma err_ext q n f g : (forall i, (0 <= i < Z.of_nat n)%Z -> f i = g i) -> err q n f = err q n g.
Proof. intros H; apply zsum_ext; intros i Hi; rewrite H by lia; reflexivity. Qed.

Lemma inner_step q f0 r st : (S q <= p)%nat -> (0 <= r < Z.of_nat (S q))%Z -> okN q f0 -> inner_inv q f0 r st ->
  exists st', bf_inner (tab (S p) (bL (S q))) (tab (S p) (bR (S q))) (Z.of_nat (S q)) r st = Ok st' /\
    inner_inv q f0 (r + 1) st'.
Proof.
  intros Hq Hr (HF0 & HE0) (f & E & Hf & HF & Fs & Bs & HE).
  destruct st as [N0 saved]; cbn [fst snd] in *; subst N0.
  unfold bf_inner; cbn [fst snd]; rewrite !aget_tab by lia; cbn [bind].
  set (i := (s - Z.of_nat q + r)%Z).
  assert (V2 : bR (S q) (r + 1) = fR (r + 1)).
  { unfold bR; destruct (Z.leb_spec 1 (r + 1)); [|lia].
    destruct (Z.leb_spec (r + 1) (Z.of_nat (S q))); [reflexivity|lia]. }
  assert (V3 : bL (S q) (Z.of_nat (S q) - r) = fL (Z.of_nat (S q) - r)).
  { unfold bL; destruct (Z.leb_spec 1 (Z.of_nat (S q) - r)); [|lia].
    destruct (Z.leb_spec (Z.of_nat (S q) - r) (Z.of_nat (S q))); [reflexivity|lia]. }
  rewrite V2, V3, (Hf r) by lia; rewrite aset_tab by lia; cbn [bind].
  destruct (fL_ok (Z.of_nat (S q) - r) ltac:(lia)) as (Fl & Bl & Xl & e1 & He1 & El).
  destruct (fR_ok (r + 1) ltac:(lia) ltac:(lia)) as (Fr & Br & Xr & e2 & He2 & Er).
  replace (s + 1 - (Z.of_nat (S q) - r))%Z with i in Xl, El by lia.
  replace (s + (r + 1))%Z with (i + Z.of_nat q + 1)%Z in Xr, Er by lia.
  destruct (HF0 r ltac:(lia)) as (Fn & Bn).
  assert (Bn2 : value (f0 r) <= 2).
  { pose proof (small_err q ltac:(lia)).
    assert (T : Rabs (value (f0 r) - N q i) <= err q (S q) f0).
    { apply (zsum_term (S q) (fun r => Rabs (value (f0 r) - N q (s - Z.of_nat q + r))) r); [lia|intros; apply Rabs_pos]. }
    apply Rabs_le_inv in T; pose proof (N_le_1 q i); lra. }
  pose proof (saved_nonneg q r ltac:(lia) Hq) as HS.
  destruct (float_step (f0 r) (fR (r + 1)) (fL (Z.of_nat (S q) - r)) saved _ _ (N q i) (exact_saved q r) e1 e2
              Fn Fr Fl Fs El He1 Er He2 Xl Xr Bl Br (gap_q q i ltac:(lia)) (N_nonneg q i) (conj Bn Bn2) Bs HS)
    as (Fnew & Bnew & Fs' & Bs' & HErr).
  eexists; split; [reflexivity|].
  unfold inner_inv; cbn [fst snd]; eexists; split; [reflexivity|].
  split; [intros j Hj; rewrite fupd_other by lia; apply Hf; lia|].
  split.
  { intros j Hj; unfold fupd; destruct (Z.eqb_spec j r) as [->|]; [split; assumption|apply HF; exact Hj]. }
  split; [exact Fs'|split; [exact Bs'|]].
  (* errors *)
  assert (ES : exact_saved q (r + 1) = (value x - k i) * (N q i / (k (i + Z.of_nat q + 1) - value x + (value x - k i)))).
  { unfold exact_saved; replace (s - Z.of_nat (S q) + (r + 1))%Z with i by lia; rewrite M_val by lia; reflexivity. }
  rewrite ES; clear ES.
  assert (EN : N (S q) (s - Z.of_nat (S q) + r) = exact_saved q r + (k (i + Z.of_nat q + 1) - value x) * (N q i / (k (i + Z.of_nat q + 1) - value x + (value x - k i)))).
  { unfold piece; change (fun i => if (i =? s)%Z then 1 else 0) with (delta s); rewrite cox_S; unfold exact_saved; f_equal.
    replace (s - Z.of_nat (S q) + r + 1)%Z with i by lia.
    replace (s - Z.of_nat (S q) + r + Z.of_nat q + 2)%Z with (i + Z.of_nat q + 1)%Z by lia.
    f_equal; apply M_val; lia. }
  replace (Z.to_nat (r + 1)) with (S (Z.to_nat r)) by lia.
  unfold err; cbn [zsum]; rewrite !Z.add_0_l, !Z2Nat.id by lia.
  rewrite fupd_same, EN, S_INR; fold i.
  fold (err q (Z.to_nat r) f0).
  assert (EE : zsum 0 (Z.to_nat r) (fun r0 => Rabs (value (fupd f r (nadd saved (nmul (fR (r + 1)) (ndiv (f0 r) (nadd (fR (r + 1)) (fL (Z.of_nat (S q) - r)))))) r0) - N (S q) (s - Z.of_nat (S q) + r0)))
     = err (S q) (Z.to_nat r) f).
  { apply zsum_ext; intros j Hj; rewrite fupd_other by lia; reflexivity. }
  rewrite EE.
  change (PrimFloat.add) with (@nadd Binary64) in HErr; change PrimFloat.mul with (@nmul Binary64) in HErr;
  change PrimFloat.div with (@ndiv Binary64) in HErr.
  lra.
Qed.

Lemma round_budget q : (S q <= p)%nat ->
  (1 + 7 * ulp64) * (8 * INR q * ulp64) + 7 * ulp64 * 1 + 5 * eta64 * INR (S q) <= 8 * INR (S q) * ulp64.
Proof.
  intros Hq; rewrite S_INR; assert (Hq2 : INR q + 1 <= 2 ^ 40) by (rewrite <- S_INR; apply le_INR in Hq; lra).
  pose proof (pos_INR q) as Hq0; pose proof eta_ulp as He; pose proof eta64_pos as Hh; pose proof ulp64_pos as Hu.
  assert (A : INR q * ulp64 <= / 2 ^ 13).
  { unfold ulp64; replace (2 ^ 53) with (2 ^ 40 * 2 ^ 13) by (rewrite <- pow_add; f_equal).
    rewrite Rinv_mult.
    apply Rle_trans with (2 ^ 40 * (/ 2 ^ 40 * / 2 ^ 13)).
    - apply Rmult_le_compat_r; [|lra]. apply Rmult_le_pos; apply Rlt_le, Rinv_0_lt_compat, pow_lt; lra.
    - rewrite <- Rmult_assoc, Rinv_r by (apply pow_nonzero; lra); lra. }
  assert (B : / 2 ^ 13 <= / 224) by (apply Rinv_le_contravar; lra).
  assert (C : eta64 * (INR q + 1) <= / 20 * ulp64).
  { apply Rle_trans with (eta64 * 2 ^ 40); [apply Rmult_le_compat_l; lra|].
    replace (2 ^ 100) with (2 ^ 40 * 2 ^ 60) in He by (rewrite <- pow_add; f_equal).
    assert (20 <= 2 ^ 60) by lra; assert (0 < eta64 * 2 ^ 40) by (apply Rmult_lt_0_compat; [lra|apply pow_lt; lra]); nra. }
  assert (D : 56 * (INR q * ulp64) * ulp64 <= / 4 * ulp64) by (apply Rmult_le_compat_r; lra).
  nra.
Qed.

Lemma round_step q f0 : (S q <= p)%nat -> okN q f0 ->
  exists f, bf_round s x U (Z.of_nat (S q)) (tab (S p) f0, tab (S p) (bL q), tab (S p) (bR q))
    = Ok (tab (S p) f, tab (S p) (bL (S q)), tab (S p) (bR (S q))) /\ okN (S q) f.
Proof.
  intros Hq Hok; unfold bf_round.
  assert (HL : forall i, (0 <= i < len U)%Z -> aget U i = Ok (fU i)) by (intros i Hi; apply aget_nth; exact Hi).
  rewrite HL by lia; cbn [bind]; rewrite aset_tab by lia; cbn [bind].
  rewrite HL by lia; cbn [bind]; rewrite aset_tab by lia; cbn [bind].
  fold (fL (Z.of_nat (S q))); fold (fR (Z.of_nat (S q))).
  replace (tab (S p) (fupd (bL q) (Z.of_nat (S q)) (fL (Z.of_nat (S q))))) with (tab (S p) (bL (S q))).
  2:{ apply tab_ext; intros j Hj; unfold fupd, bL; destruct (Z.eqb_spec j (Z.of_nat (S q))) as [->|].
      - destruct (Z.leb_spec 1 (Z.of_nat (S q))); [|lia].
        destruct (Z.leb_spec (Z.of_nat (S q)) (Z.of_nat (S q))); [reflexivity|lia].
      - destruct (Z.leb_spec j (Z.of_nat (S q))); destruct (Z.leb_spec j (Z.of_nat q)); try lia; reflexivity. }
  replace (tab (S p) (fupd (bR q) (Z.of_nat (S q)) (fR (Z.of_nat (S q))))) with (tab (S p) (bR (S q))).
  2:{ apply tab_ext; intros j Hj; unfold fupd, bR; destruct (Z.eqb_spec j (Z.of_nat (S q))) as [->|].
      - destruct (Z.leb_spec 1 (Z.of_nat (S q))); [|lia].
        destruct (Z.leb_spec (Z.of_nat (S q)) (Z.of_nat (S q))); [reflexivity|lia].
      - destruct (Z.leb_spec j (Z.of_nat (S q))); destruct (Z.leb_spec j (Z.of_nat q)); try lia; reflexivity. }
  destruct (for_range_inv (inner_inv q f0) 0 (Z.of_nat (S q))
     (bf_inner (tab (S p) (bL (S q))) (tab (S p) (bR (S q))) (Z.of_nat (S q))) (tab (S p) f0, 0%num))
    as ([N' saved] & Est & f & E & Hf & HF & Fs & Bs & HE).
  - lia.
  - unfold inner_inv; cbn [fst snd]; exists f0; split; [reflexivity|]; split; [reflexivity|].
    split; [exact (proj1 Hok)|]; split; [exact finite_0|]; rewrite value_0.
    split; [split; [lra|apply bpow_ge_0]|].
    assert (E0 : exact_saved q 0 = 0) by (unfold exact_saved, Mx; rewrite cox_support by lia; rewrite sdiv_0_l; ring).
    rewrite E0; cbn [Z.to_nat]; unfold err; cbn [zsum INR]; rewrite Rminus_0_r, Rabs_R0; lra.
  - intros r st Hr HI; apply inner_step; assumption.
  - rewrite Est; cbn [bind fst snd] in *; subst N'; rewrite aset_tab by lia; cbn [bind].
    eexists; split; [reflexivity|].
    rewrite Nat2Z.id in HE.
    assert (EU : zsum 0 (S q) (fun i => N q (s - Z.of_nat q + i)) = 1).
    { rewrite <- (piece_unity (values U) s q (value x) HU s_lt).
      pose proof (zsum_shift 0 (s - Z.of_nat q) (S q) (fun i => N q i)) as Z0; rewrite Z.add_0_l in Z0; rewrite Z0.
      apply zsum_ext; intros i _; f_equal; lia. }
    rewrite EU in HE; pose proof (round_budget q Hq) as HB.
    assert (E1 : N (S q) (s - Z.of_nat (S q) + Z.of_nat (S q)) = exact_saved q (Z.of_nat (S q))).
    { unfold piece; change (fun i => if (i =? s)%Z then 1 else 0) with (delta s); rewrite cox_S; unfold exact_saved.
      unfold Mx at 2; rewrite cox_support by lia; rewrite sdiv_0_l; ring. }
    pose proof ulp64_pos as Hu.
    pose proof (saved_nonneg q (Z.of_nat (S q)) ltac:(lia) Hq) as HS.
    split.
    + intros r Hr; unfold fupd; destruct (Z.eqb_spec r (Z.of_nat (S q))) as [->|]; [split; [exact Fs|lra]|apply HF; lia].
    + unfold err; change (zsum 0 (S (S q)) ?g) with (zsum 0 (S q) g + g (0 + Z.of_nat (S q))%Z); cbn beta.
      rewrite Z.add_0_l, fupd_same, E1.
      assert (EE : zsum 0 (S q) (fun r => Rabs (value (fupd f (Z.of_nat (S q)) saved r) - N (S q) (s - Z.of_nat (S q) + r)))
        = err (S q) (S q) f).
      { apply zsum_ext; intros j Hj; rewrite fupd_other by lia; reflexivity. }
      rewrite EE; pose proof (proj2 Hok) as H0.
      set (a := Rabs (value saved - exact_saved q (Z.of_nat (S q)))) in *.
      assert (0 <= a) by apply Rabs_pos.
      assert (0 <= ulp64 * a) by nra.
      assert (0 <= ulp64 * exact_saved q (Z.of_nat (S q))) by nra.
      assert ((1 + 7 * ulp64) * err q (S q) f0 <= (1 + 7 * ulp64) * (8 * INR q * ulp64)) by (apply Rmult_le_compat_l; lra).
      lra.
Qed.

Lemma basis_loop : exists f, basis_functions s x (Z.of_nat p) U = Ok (tab (S p) f) /\ okN p f.
Proof.
  unfold basis_functions; rewrite !(np_full_tab' _ (S p)) by lia; cbn [bind].
  destruct (for_range_inv (fun j st => exists f, st = (tab (S p) f, tab (S p) (bL (Z.to_nat (j - 1))), tab (S p) (bR (Z.to_nat (j - 1)))) /\
      okN (Z.to_nat (j - 1)) f) 1 (Z.of_nat p + 1) (bf_round s x U)
     (tab (S p) (fun _ => 1%num), tab (S p) (fun _ => 0%num), tab (S p) (fun _ => 0%num)))
    as (st & Est & f & -> & Hf).
  - lia.
  - exists (fun _ => 1%num); cbn [Z.sub Z.to_nat Z.add Z.opp Z.pos_sub]; split.
    + f_equal; [f_equal|]; apply tab_ext; intros j Hj; [unfold bL|unfold bR];
        destruct (Z.leb_spec 1 j); destruct (Z.leb_spec j (Z.of_nat 0)); try lia; reflexivity.
    + split.
      * intros r Hr; split; [exact finite_1|rewrite value_1; lra].
      * unfold err; cbn [zsum INR]; rewrite value_1.
        replace (s - Z.of_nat 0 + (0 + Z.of_nat 0))%Z with s by lia.
        unfold piece; cbn [cox]; rewrite Z.eqb_refl; replace (1 - 1) with 0 by ring; rewrite Rabs_R0; lra.
  - intros j st Hj (f & -> & Hf).
    destruct (round_step (Z.to_nat (j - 1)) f ltac:(lia) Hf) as (f' & E & Hf').
    replace (Z.of_nat (S (Z.to_nat (j - 1)))) with j in E by lia.
    eexists; split; [exact E|]; exists f'.
    replace (Z.to_nat (j + 1 - 1)) with (S (Z.to_nat (j - 1))) by lia; split; [reflexivity|exact Hf'].
  - rewrite Est; cbn [bind fst]; exists f.
    replace (Z.to_nat (Z.of_nat p + 1 - 1)) with p in Hf by lia; split; [reflexivity|exact Hf].
Qed.
End Loops.

Lemma error1_tab n f g : error1 (tab n f) (tab n g) = zsum 0 n (fun i => Rabs (f i - g i)).
Proof.
  revert f g; induction n as [|n IH]; intros f g; [reflexivity|].
  rewrite !tab_cons, zsum_first; cbn [error1]; rewrite IH.
  replace 1%Z with (0 + 1)%Z at 3 by lia; rewrite zsum_shift; reflexivity.
Qed.

Lemma basis_functions_b64 (U : list PrimFloat.float) s (x : Binary64) p :
  within 0 1 U -> nondecreasing (values U) -> finite64 x ->
  kn (values U) s <= value x <= kn (values U) (s + 1) -> / 2 ^ 1000 <= kn (values U) (s + 1) - kn (values U) s ->
  (Z.of_nat p - 1 <= s)%Z -> (0 <= s)%Z -> (s + Z.of_nat p < len U)%Z -> (s + 1 < len U)%Z -> INR p <= 2 ^ 40 ->
  exists B : list PrimFloat.float, basis_functions s x (Z.of_nat p) U = Ok B /\ length B = S p /\
    Forall (fun b => finite64 b /\ 0 <= value b) B /\
    error1 (values B) (pieces (values U) s p (value x)) <= 8 * INR p * ulp64.
Proof.
  intros HW HU Fx Hx Hg H1 H2 H3 H4 Hp.
  assert (Hg' : bpow radix2 (-1000) <= kn (values U) (s + 1) - kn (values U) s).
  { rewrite bpow_powerRZ; exact Hg. }
  destruct (basis_loop U s x p HW HU Fx Hx Hg' H1 H2 H3 H4 Hp) as (f & E & HF & HE).
  exists (tab (S p) f); split; [exact E|]; split; [apply tab_length|]; split.
  - apply Forall_tab; intros i Hi; apply HF; lia.
  - unfold values at 1; rewrite map_tab; unfold pieces; rewrite error1_tab; exact HE.
Qed.
