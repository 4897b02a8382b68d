(** [one_basis_function] (model: ModelBasis.v) on binary64 numbers: the two
    products of a step, and their rounding errors. *)
From Coq Require Import Reals Lra Lia ZArith List Floats.
From Flocq Require Import Core.Core.
From Verif Require Import Py PyLemmas Num ModelBasis Spec SpecB64 MathCox MathKnots ProofBasis ProofOneBasis ProofB64 ProofB64Basis.
Import ListNotations.
Open Scope R_scope.

(** ** Errors of the two forms of the product, over the reals *)
Section Parts.
Variables (u h X D n m e e3 e4 e5 h4 h5 : R).
Hypothesis Hu : 0 < u <= /1000.
Hypothesis Hh : 0 <= h.
Hypothesis HX : 0 <= X <= D.
Hypothesis HD : 0 < D <= 1.
Hypothesis Hn : 0 <= n.
Hypothesis He : Rabs e <= u.
Hypothesis He3 : Rabs e3 <= u.
Hypothesis He4 : Rabs e4 <= u.
Hypothesis He5 : Rabs e5 <= u.
Hypothesis Hh4 : Rabs h4 <= h.
Hypothesis Hh5 : Rabs h5 <= h.

Lemma one_plus z : Rabs z <= u -> 999/1000 <= 1 + z <= 1001/1000.
Proof using Hu. intros H; apply Rabs_le_inv in H; lra. Qed.
Let f := (1 + e) * (1 + e4) * (1 + e5) * / (1 + e3).
Lemma inv_err : Rabs (/ (1 + e3) - 1) <= (11/10) * u.
Proof using Hu He3.
  pose proof (one_plus e3 He3) as P.
  replace (/ (1 + e3) - 1) with ((- e3) * / (1 + e3)) by (field; lra).
  rewrite Rabs_mult, Rabs_Ropp, (Rabs_right (/ (1 + e3))) by (apply Rle_ge, Rlt_le, Rinv_0_lt_compat; lra).
  apply (Rmult_le_reg_r (1 + e3)); [lra|]; rewrite Rmult_assoc, Rinv_l, Rmult_1_r by lra; nra.
Qed.
Lemma f_err : Rabs (f - 1) <= 5 * u.
Proof using Hu He He3 He4 He5.
  assert (C : forall z, Rabs z <= u -> Rabs (1 + z - 1) <= 1 * u) by (intros z Hz; replace (1 + z - 1) with z by ring; lra).
  pose proof (factor_mul u _ _ 1 1 (proj1 Hu) ltac:(lra) ltac:(lra) (C e He) (C e4 He4)) as F1.
  assert (F1' : Rabs ((1 + e) * (1 + e4) - 1) <= (201/100) * u) by (eapply Rle_trans; [exact F1|apply Rmult_le_compat_r; nra]).
  pose proof (factor_mul u _ _ (201/100) 1 (proj1 Hu) ltac:(lra) ltac:(lra) F1' (C e5 He5)) as F2.
  assert (F2' : Rabs ((1 + e) * (1 + e4) * (1 + e5) - 1) <= (302/100) * u) by (eapply Rle_trans; [exact F2|apply Rmult_le_compat_r; nra]).
  pose proof (factor_mul u _ _ (302/100) (11/10) (proj1 Hu) ltac:(lra) ltac:(lra) F2' inv_err) as F3.
  eapply Rle_trans; [exact F3|apply Rmult_le_compat_r; nra].
Qed.
Lemma main_err : Rabs (X / D * (f * (m - n) + (f - 1) * n)) <= X / D * ((1 + 5 * u) * Rabs (m - n) + 5 * u * n).
Proof using Hu HX HD Hn He He3 He4 He5.
  pose proof f_err as F.
  assert (Hq : 0 <= X / D) by (apply Rmult_le_pos; [lra|apply Rlt_le, Rinv_0_lt_compat; lra]).
  rewrite Rabs_mult, (Rabs_right (X / D)) by lra; apply Rmult_le_compat_l; [exact Hq|].
  apply Rle_trans with (1 := Rabs_triang _ _); apply Rplus_le_compat.
  - rewrite Rabs_mult; apply Rmult_le_compat_r; [apply Rabs_pos|].
    replace f with (1 + (f - 1)) by ring; apply Rle_trans with (1 := Rabs_triang _ _); rewrite Rabs_R1; lra.
  - rewrite Rabs_mult, (Rabs_right n) by lra; apply Rmult_le_compat_r; assumption.
Qed.

(** Distance times quotient. *)
Lemma part1_err :
  Rabs (X * (1 + e) * (m / (D * (1 + e3)) * (1 + e4) + h4) * (1 + e5) + h5 - X * (n / D))
  <= X / D * ((1 + 5 * u) * Rabs (m - n) + 5 * u * n) + (21/10) * h.
Proof using Hu Hh HX HD Hn He He3 He4 He5 Hh4 Hh5.
  pose proof (one_plus e3 He3) as P3; pose proof (one_plus e He) as P; pose proof (one_plus e5 He5) as P5.
  replace (X * (1 + e) * (m / (D * (1 + e3)) * (1 + e4) + h4) * (1 + e5) + h5 - X * (n / D))
    with (X / D * (f * (m - n) + (f - 1) * n) + (X * (1 + e) * (1 + e5) * h4 + h5)) by (unfold f; field; lra).
  apply Rle_trans with (1 := Rabs_triang _ _); apply Rplus_le_compat; [apply main_err|].
  apply Rle_trans with (1 := Rabs_triang _ _).
  assert (Rabs (X * (1 + e) * (1 + e5) * h4) <= (11/10) * h).
  { rewrite Rabs_mult, (Rabs_right (X * (1 + e) * (1 + e5))) by (apply Rle_ge; repeat apply Rmult_le_pos; lra).
    apply Rmult_le_compat; [repeat apply Rmult_le_pos; lra|apply Rabs_pos| |exact Hh4].
    assert (X * (1 + e) <= 1001/1000) by nra; assert (0 <= X * (1 + e)) by (apply Rmult_le_pos; lra); nra. }
  lra.
Qed.

(** Product first, then the quotient. *)
Lemma part2_err :
  Rabs ((X * (1 + e) * m * (1 + e4) + h4) / (D * (1 + e3)) * (1 + e5) + h5 - X * (n / D))
  <= X / D * ((1 + 5 * u) * Rabs (m - n) + 5 * u * n) + ((11/10) * (h / D) + h).
Proof using Hu Hh HX HD Hn He He3 He4 He5 Hh4 Hh5.
  pose proof (one_plus e3 He3) as P3; pose proof (one_plus e He) as P; pose proof (one_plus e5 He5) as P5.
  replace ((X * (1 + e) * m * (1 + e4) + h4) / (D * (1 + e3)) * (1 + e5) + h5 - X * (n / D))
    with (X / D * (f * (m - n) + (f - 1) * n) + (h4 / D * ((1 + e5) * / (1 + e3)) + h5)) by (unfold f; field; lra).
  apply Rle_trans with (1 := Rabs_triang _ _); apply Rplus_le_compat; [apply main_err|].
  apply Rle_trans with (1 := Rabs_triang _ _); apply Rplus_le_compat; [|exact Hh5].
  assert (Hi : 0 < / (1 + e3)) by (apply Rinv_0_lt_compat; lra).
  assert (HiD : 0 < / D) by (apply Rinv_0_lt_compat; lra).
  rewrite Rabs_mult, (Rabs_right ((1 + e5) * / (1 + e3))) by (apply Rle_ge, Rmult_le_pos; lra).
  rewrite Rmult_comm; apply Rmult_le_compat; [apply Rmult_le_pos; lra|apply Rabs_pos| |].
  - apply (Rmult_le_reg_r (1 + e3)); [lra|]; rewrite Rmult_assoc, Rinv_l, Rmult_1_r by lra; nra.
  - unfold Rdiv; rewrite Rabs_mult, (Rabs_right (/ D)) by lra; apply Rmult_le_compat_r; lra.
Qed.
End Parts.

(** ** The same on doubles *)
Lemma dist64 (a b : PrimFloat.float) : finite64 a -> finite64 b -> 0 <= value a -> value a <= value b -> value b <= 1 ->
  finite64 (b - a) /\ 0 <= value (b - a) <= 1 /\
  exists e, Rabs e <= ulp64 /\ value (b - a) = (value b - value a) * (1 + e).
Proof.
  intros Fa Fb H0 Hab H1.
  destruct (sub64 b a Fb Fa) as (F & V).
  { apply rnd_safe with 0%Z; [lia|]; change (bpow radix2 0) with 1; apply Rabs_le; lra. }
  destruct (rnd_sub_err _ _ (value_fmt b) (value_fmt a)) as (e & He & E).
  split; [exact F|split].
  - rewrite V; split; [apply rnd_nonneg; lra|].
    apply Rle_trans with (1 := Rle_abs _); change 1 with (bpow radix2 0); apply rnd_bound; [lia|].
    change (bpow radix2 0) with 1; apply Rabs_le; lra.
  - exists e; split; [exact He|rewrite V; exact E].
Qed.

(** One bound for both absolute parts. *)
Definition c64 : R := bpow radix2 (-574).
Lemma c64_pos : 0 < c64.
Proof. apply bpow_gt_0. Qed.
Lemma c64_1 : (21/10) * eta64 <= c64.
Proof.
  apply Rle_trans with (bpow radix2 2 * eta64).
  - apply Rmult_le_compat_r; [apply Rlt_le, eta64_pos|]; change (bpow radix2 2) with 4; lra.
  - unfold eta64, c64; rewrite <- bpow_plus; apply bpow_le; lia.
Qed.
Lemma c64_2 D : bpow radix2 (-500) <= D -> (11/10) * (eta64 / D) + eta64 <= c64.
Proof.
  intros HD; pose proof (bpow_gt_0 radix2 (-500)) as P.
  assert (A : eta64 / D <= bpow radix2 (-575)).
  { apply Rle_trans with (eta64 / bpow radix2 (-500)).
    - apply Rmult_le_compat_l; [apply Rlt_le, eta64_pos|apply Rinv_le_contravar; assumption].
    - unfold Rdiv; rewrite <- bpow_opp; unfold eta64; rewrite <- bpow_plus; right; reflexivity. }
  assert (B : eta64 <= /2 * bpow radix2 (-575)).
  { replace (/2 * bpow radix2 (-575)) with (bpow radix2 (-575) / 2) by lra; rewrite half_bpow; unfold eta64; apply bpow_le; lia. }
  unfold c64; replace (-574)%Z with (1 + -575)%Z by lia; rewrite <- two_bpow; pose proof (bpow_gt_0 radix2 (-575)); lra.
Qed.

Definition part_ok (X D n m : R) (y : PrimFloat.float) : Prop :=
  finite64 y /\ 0 <= value y <= bpow radix2 502 /\ (X = 0 -> value y = 0) /\
  Rabs (value y - X * (n / D)) <= X / D * ((1 + 5 * ulp64) * Rabs (m - n) + 5 * ulp64 * n) + c64.

Section FloatParts.
Variables (d den nr : PrimFloat.float) (X D n e e3 : R).
Hypothesis Fd : finite64 d.
Hypothesis Fden : finite64 den.
Hypothesis Fn : finite64 nr.
Hypothesis Vd : value d = X * (1 + e).
Hypothesis He : Rabs e <= ulp64.
Hypothesis Bd : 0 <= value d <= 1.
Hypothesis Vden : value den = D * (1 + e3).
Hypothesis He3 : Rabs e3 <= ulp64.
Hypothesis HX : 0 <= X <= D.
Hypothesis HD : bpow radix2 (-500) <= D <= 1.
Hypothesis Hn : 0 <= n.
Hypothesis Hnr : 0 <= value nr <= 2.

Lemma D_pos : 0 < D.
Proof using HD. apply Rlt_le_trans with (2 := proj1 HD); apply bpow_gt_0. Qed.
Lemma den_low : bpow radix2 (-501) <= value den.
Proof using Vden He3 HD.
  rewrite Vden; pose proof (one_plus ulp64 ulp64_small e3 He3) as P.
  replace (-501)%Z with (-1 + -500)%Z by lia; rewrite <- half_bpow.
  pose proof D_pos; nra.
Qed.
Lemma den_pos : 0 < value den.
Proof using Vden He3 HD. apply Rlt_le_trans with (2 := den_low); apply bpow_gt_0. Qed.
Lemma quot_bound y : 0 <= y <= 2 -> 0 <= y / value den <= bpow radix2 502.
Proof using Vden He3 HD.
  intros Hy; pose proof den_pos as P; split; [apply Rmult_le_pos; [lra|apply Rlt_le, Rinv_0_lt_compat; exact P]|].
  apply (Rmult_le_reg_r (value den)); [exact P|]; unfold Rdiv; rewrite Rmult_assoc, Rinv_l, Rmult_1_r by lra.
  apply Rle_trans with (bpow radix2 502 * bpow radix2 (-501)).
  - rewrite <- bpow_plus; change (bpow radix2 (502 + -501)) with 2; lra.
  - apply Rmult_le_compat_l; [apply bpow_ge_0|exact den_low].
Qed.
Lemma quot_ok y : finite64 y -> 0 <= value y <= 2 ->
  finite64 (y / den) /\ value (y / den) = rnd (value y / value den) /\ 0 <= value (y / den) <= bpow radix2 502.
Proof using Fden Vden He3 HD.
  intros Fy Hy; pose proof (quot_bound _ Hy) as B; pose proof den_pos as P.
  destruct (div64 y den Fy Fden) as (F & V).
  { lra. }
  { apply rnd_safe with 502%Z; [lia|]; apply Rabs_le; lra. }
  split; [exact F|split; [exact V|]]; rewrite V; split; [apply rnd_nonneg; lra|].
  apply Rle_trans with (1 := Rle_abs _); apply rnd_bound; [lia|apply Rabs_le; lra].
Qed.

Lemma part1_ok : part_ok X D n (value nr) (d * (nr / den))%float.
Proof using All.
  pose proof D_pos as DP; pose proof ulp64_small as Hu; pose proof eta64_pos as Hh.
  destruct (quot_ok nr Fn Hnr) as (Ft & Vt & Bt).
  destruct (mul64 d (nr / den)%float Fd Ft) as (F & V).
  { apply rnd_safe with 502%Z; [lia|]; apply Rabs_le; nra. }
  split; [exact F|split; [|split]].
  - rewrite V; split; [apply rnd_nonneg; nra|].
    apply Rle_trans with (1 := Rle_abs _); apply rnd_bound; [lia|apply Rabs_le; nra].
  - intros E; rewrite V, Vd, E, Rmult_0_l, Rmult_0_l; apply rnd_0.
  - destruct (rnd_err (value nr / value den)) as (e4 & h4 & He4 & Hh4 & E4).
    destruct (rnd_err (value d * value (nr / den)%float)) as (e5 & h5 & He5 & Hh5 & E5).
    rewrite V, E5, Vt, E4, Vd, Vden.
    eapply Rle_trans; [eapply (part1_err ulp64 eta64); try eassumption; lra|].
    apply Rplus_le_compat_l, c64_1.
Qed.
Lemma part2_ok : part_ok X D n (value nr) (d * nr / den)%float.
Proof using All.
  pose proof D_pos as DP; pose proof ulp64_small as Hu; pose proof eta64_pos as Hh.
  assert (B : 0 <= value d * value nr <= 2) by nra.
  destruct (mul64 d nr Fd Fn) as (Fm & Vm).
  { apply rnd_safe with 1%Z; [lia|]; change (bpow radix2 1) with 2; apply Rabs_le; lra. }
  assert (Bm : 0 <= value (d * nr)%float <= 2).
  { rewrite Vm; split; [apply rnd_nonneg; lra|].
    apply Rle_trans with (1 := Rle_abs _); change 2 with (bpow radix2 1); apply rnd_bound; [lia|].
    change (bpow radix2 1) with 2; apply Rabs_le; lra. }
  destruct (quot_ok _ Fm Bm) as (F & V & Bq).
  split; [exact F|split; [exact Bq|split]].
  - intros E; rewrite V, Vm, Vd, E, Rmult_0_l, Rmult_0_l, rnd_0; unfold Rdiv; rewrite Rmult_0_l; apply rnd_0.
  - destruct (rnd_err (value d * value nr)) as (e4 & h4 & He4 & Hh4 & E4).
    destruct (rnd_err (value (d * nr)%float / value den)) as (e5 & h5 & He5 & Hh5 & E5).
    rewrite V, E5, Vm, E4, Vd, Vden.
    eapply Rle_trans; [eapply (part2_err ulp64 eta64); try eassumption; lra|].
    apply Rplus_le_compat_l, c64_2; lra.
Qed.
End FloatParts.

(** Sum of two parts: relative error of the addition. *)
Lemma sum_ok (y z : PrimFloat.float) (Y Z ey ez : R) :
  finite64 y -> finite64 z -> 0 <= value y <= bpow radix2 502 -> 0 <= value z <= bpow radix2 502 ->
  Rabs (value y - Y) <= ey -> Rabs (value z - Z) <= ez -> 0 <= Y -> 0 <= Z ->
  finite64 (y + z) /\ 0 <= value (y + z) /\ (value y = 0 -> value z = 0 -> value (y + z) = 0) /\
  Rabs (value (y + z) - (Y + Z)) <= (1 + ulp64) * (ey + ez) + ulp64 * (Y + Z).
Proof.
  intros Fy Fz By Bz Hy Hz HY HZ; pose proof ulp64_small as Hu.
  destruct (add64 y z Fy Fz) as (F & V).
  { apply rnd_safe with 503%Z; [lia|]; replace 503%Z with (1 + 502)%Z by lia; rewrite <- two_bpow; apply Rabs_le; lra. }
  destruct (rnd_add_err _ _ (value_fmt y) (value_fmt z)) as (e & He & E).
  split; [exact F|split; [rewrite V; apply rnd_nonneg; lra|split]].
  - intros E1 E2; rewrite V, E1, E2, Rplus_0_l; apply rnd_0.
  - rewrite V, E; clear F V E Fy Fz By Bz.
    replace ((value y + value z) * (1 + e) - (Y + Z))
      with ((1 + e) * ((value y - Y) + (value z - Z)) + e * (Y + Z)) by ring.
    apply Rle_trans with (1 := Rabs_triang _ _); rewrite !Rabs_mult; apply Rplus_le_compat.
    + apply Rmult_le_compat; try apply Rabs_pos.
      * apply Rle_trans with (1 := Rabs_triang _ _); rewrite Rabs_R1; lra.
      * apply Rle_trans with (1 := Rabs_triang _ _); lra.
    + rewrite (Rabs_right (Y + Z)) by lra; apply Rmult_le_compat_r; lra.
Qed.

(** ** Sums of absolute errors do not grow *)
Lemma shift_sum (A B g : Z -> R) n : forall k, (k <= n)%nat ->
  (forall r, (0 <= r <= Z.of_nat n)%Z -> 0 <= A r /\ 0 <= B r /\ A r + B r <= 1 /\ 0 <= g r) ->
  zsum 0 k (fun r => A r * g r + B (r + 1)%Z * g (r + 1)%Z) <= zsum 0 (S k) g.
Proof.
  intros k Hk H0.
  enough (H : zsum 0 k (fun r => A r * g r + B (r + 1)%Z * g (r + 1)%Z) <= zsum 0 k g + B (Z.of_nat k) * g (Z.of_nat k)).
  { cbn [zsum]; replace (0 + Z.of_nat k)%Z with (Z.of_nat k) by lia.
    destruct (H0 (Z.of_nat k) ltac:(lia)) as (? & ? & ? & ?); nra. }
  induction k as [|k IH]; cbn [zsum].
  - destruct (H0 (Z.of_nat 0) ltac:(lia)) as (? & ? & ? & ?); nra.
  - specialize (IH ltac:(lia)).
    replace (0 + Z.of_nat k)%Z with (Z.of_nat k) by lia.
    replace (Z.of_nat k + 1)%Z with (Z.of_nat (S k)) by lia.
    destruct (H0 (Z.of_nat k) ltac:(lia)) as (? & ? & ? & ?); nra.
Qed.
