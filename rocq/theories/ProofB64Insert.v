(** [curve_knot_insertion] (model: ModelKnots.v) on binary64 numbers: every
    computed control point is close to the exact one of Boehm's algorithm. *)
From Coq Require Import Reals Lra Lia ZArith List Floats.
From Flocq Require Import Core.Core IEEE754.BinarySingleNaN IEEE754.PrimFloat.
From Verif Require Import Py PyLemmas Num ModelKnots Spec SpecB64 MathCox MathKnots ProofNum ProofBasis ProofKnots ProofSpan ProofSpan2
  ProofInsert ProofInsert2 ProofFit4 ProofB64 ProofB64Basis ProofB64Span ProofB64Curve ProofB64Knots ProofB64Surface ProofInit.
Import ListNotations.
Open Scope R_scope.

(** ** The weight *)
Lemma rnd_unit t : 0 <= t <= 1 -> 0 <= rnd t <= 1.
Proof.
  intros H; split; [apply rnd_nonneg; lra|].
  apply Rle_trans with (1 := Rle_abs _); apply (rnd_bound _ 0); [lia|change (bpow radix2 0) with 1; apply Rabs_le; lra].
Qed.
Lemma difference64 (a b : PrimFloat.float) : finite64 a -> finite64 b ->
  Rabs (value a) <= 2 ^ 1000 -> Rabs (value b) <= 2 ^ 1000 ->
  finite64 (a - b)%float /\ value (a - b)%float = rnd (value a - value b) /\
  exists e, Rabs e <= ulp64 /\ value (a - b)%float = (value a - value b) * (1 + e).
Proof.
  intros Fa Fb Ba Bb.
  assert (P : bpow radix2 1000 = 2 ^ 1000) by (rewrite bpow_powerRZ; reflexivity).
  destruct (sub64 a b Fa Fb) as (F & V).
  { apply rnd_safe with 1001%Z; [lia|]; replace (bpow radix2 1001) with (2 * bpow radix2 1000) by apply two_bpow.
    unfold Rminus; apply Rle_trans with (1 := Rabs_triang _ _); rewrite Rabs_Ropp; lra. }
  destruct (rnd_sub_err (value a) (value b) (value_fmt _) (value_fmt _)) as (e & He & E).
  split; [exact F|]; split; [exact V|]; exists e; split; [exact He|rewrite V; exact E].
Qed.
Lemma ratio_close d1 d2 e1 e2 : 0 <= d1 <= d2 -> 0 < d2 -> Rabs e1 <= ulp64 -> Rabs e2 <= ulp64 ->
  Rabs (d1 * (1 + e1) / (d2 * (1 + e2)) - d1 / d2) <= 21 / 10 * ulp64.
Proof.
  intros H1 H2 E1 E2; pose proof ulp64_small as Hu.
  apply Rabs_le_inv in E1; apply Rabs_le_inv in E2.
  set (q := d1 / d2).
  assert (Q : 0 <= q <= 1).
  { unfold q; split; [apply Rmult_le_pos; [lra|apply Rlt_le, Rinv_0_lt_compat; lra]|].
    apply (Rmult_le_reg_r d2); [lra|]; unfold Rdiv; rewrite Rmult_assoc, Rinv_l; lra. }
  replace (d1 * (1 + e1) / (d2 * (1 + e2)) - q) with (q * ((e1 - e2) / (1 + e2))) by (unfold q; field; lra).
  rewrite Rabs_mult, (Rabs_right q) by lra.
  assert (B : Rabs ((e1 - e2) / (1 + e2)) <= 21 / 10 * ulp64).
  { unfold Rdiv; rewrite Rabs_mult, (Rabs_right (/ (1 + e2))) by (apply Rle_ge, Rlt_le, Rinv_0_lt_compat; lra).
    apply (Rmult_le_reg_r (1 + e2)); [lra|]; rewrite Rmult_assoc, Rinv_l, Rmult_1_r by lra.
    apply Rabs_le; nra. }
  pose proof (Rabs_pos ((e1 - e2) / (1 + e2))); nra.
Qed.
Lemma weight64 (x a b : PrimFloat.float) : finite64 x -> finite64 a -> finite64 b ->
  Rabs (value x) <= 2 ^ 1000 -> Rabs (value a) <= 2 ^ 1000 -> Rabs (value b) <= 2 ^ 1000 ->
  value a <= value x < value b ->
  let t := (value x - value a) / (value b - value a) in
  let w := ((x - a) / (b - a))%float in
  finite64 w /\ 0 <= value w <= 1 /\ Rabs (value w - t) <= 4 * ulp64 /\
  finite64 (1 - w)%float /\ 0 <= value (1 - w)%float <= 1 /\ Rabs (value (1 - w)%float - (1 - t)) <= 5 * ulp64 /\
  value w + value (1 - w)%float <= 1 + ulp64.
Proof.
  intros Fx Fa Fb Bx Ba Bb H t w; pose proof ulp64_small as Hu; pose proof eta64_pos as Hh; pose proof eta_ulp as Hhu.
  assert (Hhu' : eta64 <= / 10 * ulp64).
  { assert (10 <= 2 ^ 100) by (apply Rle_trans with (2 ^ 4); [cbn; lra|apply Rle_pow; [lra|lia]]); nra. }
  destruct (difference64 x a Fx Fa Bx Ba) as (F1 & V1 & e1 & E1 & D1).
  destruct (difference64 b a Fb Fa Bb Ba) as (F2 & V2 & e2 & E2 & D2).
  set (d1 := (x - a)%float) in *; set (d2 := (b - a)%float) in *.
  assert (N2 : 0 < value d2).
  { rewrite D2; apply Rmult_lt_0_compat; [lra|]; apply Rabs_le_inv in E2; lra. }
  assert (O : 0 <= value d1 <= value d2).
  { rewrite V1, V2; split; [apply rnd_nonneg; lra|apply rnd_le; lra]. }
  assert (Q : 0 <= value d1 / value d2 <= 1).
  { split; [apply Rmult_le_pos; [lra|apply Rlt_le, Rinv_0_lt_compat; lra]|].
    apply (Rmult_le_reg_r (value d2)); [lra|]; unfold Rdiv; rewrite Rmult_assoc, Rinv_l; lra. }
  destruct (div64 d1 d2 F1 F2) as (Fw & Vw).
  { lra. }
  { apply rnd_safe with 0%Z; [lia|]; change (bpow radix2 0) with 1; apply Rabs_le; lra. }
  fold w in Fw, Vw.
  assert (Bw : 0 <= value w <= 1) by (rewrite Vw; apply rnd_unit; exact Q).
  assert (Ew : Rabs (value w - t) <= 4 * ulp64).
  { destruct (rnd_err (value d1 / value d2)) as (e & h & He & Hh' & E); rewrite <- Vw in E.
    pose proof (ratio_close (value x - value a) (value b - value a) e1 e2 ltac:(lra) ltac:(lra) E1 E2) as R.
    rewrite <- D1, <- D2 in R; fold t in R.
    replace (value w - t) with ((value d1 / value d2 - t) + (value d1 / value d2 * e + h)) by (rewrite E; ring).
    apply Rle_trans with (1 := Rabs_triang _ _).
    assert (Rabs (value d1 / value d2 * e + h) <= 11 / 10 * ulp64).
    { apply Rle_trans with (1 := Rabs_triang _ _); rewrite Rabs_mult, (Rabs_right (value d1 / value d2)) by lra.
      pose proof (Rabs_pos e); nra. }
    lra. }
  split; [exact Fw|]; split; [exact Bw|]; split; [exact Ew|].
  assert (F1' : finite64 1%float) by exact finite_1; assert (V1' : value 1%float = 1) by exact value_1.
  destruct (sub64 1%float w F1' Fw) as (Fv & Vv).
  { rewrite V1'; apply rnd_safe with 0%Z; [lia|]; change (bpow radix2 0) with 1; apply Rabs_le; lra. }
  rewrite V1' in Vv.
  destruct (rnd_sub_err (value 1%float) (value w) (value_fmt _) (value_fmt _)) as (e & He & E).
  rewrite V1' in E; rewrite <- Vv in E.
  assert (D : Rabs (value (1 - w)%float - (1 - value w)) <= ulp64).
  { rewrite E; replace ((1 - value w) * (1 + e) - (1 - value w)) with ((1 - value w) * e) by ring.
    rewrite Rabs_mult, (Rabs_right (1 - value w)) by lra; pose proof (Rabs_pos e); nra. }
  split; [exact Fv|]; split; [rewrite Vv; apply rnd_unit; lra|]; split.
  - replace (value (1 - w)%float - (1 - t)) with ((value (1 - w)%float - (1 - value w)) - (value w - t)) by ring.
    apply Rle_trans with (1 := Rabs_triang _ _); rewrite Rabs_Ropp; lra.
  - apply Rabs_le_inv in D; lra.
Qed.

(** ** One new coordinate *)
Lemma product_close w t k y z E M : 0 <= w <= 1 -> Rabs (w - t) <= k * ulp64 -> 0 <= k -> Rabs (y - z) <= E -> Rabs z <= M ->
  Rabs (w * y - t * z) <= w * E + k * ulp64 * M /\ Rabs (w * y) <= w * (M + E).
Proof.
  intros Hw Ht Hk Hy Hz; split.
  - replace (w * y - t * z) with (w * (y - z) + (w - t) * z) by ring.
    apply Rle_trans with (1 := Rabs_triang _ _); rewrite !Rabs_mult, (Rabs_right w) by lra.
    apply Rplus_le_compat; [apply Rmult_le_compat_l; lra|].
    apply Rmult_le_compat; try apply Rabs_pos; assumption.
  - rewrite Rabs_mult, (Rabs_right w) by lra; apply Rmult_le_compat_l; [lra|].
    replace y with (z + (y - z)) by ring; apply Rle_trans with (1 := Rabs_triang _ _); lra.
Qed.
Lemma blend64 (w v y1 y0 : PrimFloat.float) t z1 z0 E M :
  finite64 w -> 0 <= value w <= 1 -> Rabs (value w - t) <= 4 * ulp64 ->
  finite64 v -> 0 <= value v <= 1 -> Rabs (value v - (1 - t)) <= 5 * ulp64 -> value w + value v <= 1 + ulp64 ->
  0 <= t <= 1 -> finite64 y1 -> finite64 y0 -> Rabs z1 <= M -> Rabs z0 <= M ->
  Rabs (value y1 - z1) <= E -> Rabs (value y0 - z0) <= E -> 0 <= M <= 2 ^ 900 -> 0 <= E <= 2 ^ 900 ->
  let y := (w * y1 + v * y0)%float in
  finite64 y /\ Rabs (value y - (t * z1 + (1 - t) * z0)) <= E + 5 * ulp64 * E + 23 / 2 * ulp64 * M + 3 * eta64.
Proof.
  intros Fw Bw Ew Fv Bv Ev Swv Ht F1 F0 M1 M0 E1 E0 HM HE y.
  pose proof ulp64_small as Hu; pose proof eta64_pos as Hh.
  assert (P : bpow radix2 902 = 4 * 2 ^ 900) by (change (bpow radix2 902) with (bpow radix2 (1 + (1 + 900))); rewrite <- !two_bpow, bpow_powerRZ; change (powerRZ (IZR radix2) 900) with (2 ^ 900); ring).
  destruct (product_close (value w) t 4 (value y1) z1 E M Bw Ew ltac:(lra) E1 M1) as (A1 & B1).
  destruct (product_close (value v) (1 - t) 5 (value y0) z0 E M Bv Ev ltac:(lra) E0 M0) as (A0 & B0).
  assert (C1 : value w * (M + E) <= M + E) by nra; assert (C0 : value v * (M + E) <= M + E) by nra.
  destruct (mul64 w y1 Fw F1) as (G1 & V1).
  { apply rnd_safe with 902%Z; [lia|]; rewrite P; lra. }
  destruct (mul64 v y0 Fv F0) as (G0 & V0).
  { apply rnd_safe with 902%Z; [lia|]; rewrite P; lra. }
  assert (R1 : Rabs (value (w * y1)%float) <= bpow radix2 902) by (rewrite V1; apply rnd_bound; [lia|rewrite P; lra]).
  assert (R0 : Rabs (value (v * y0)%float) <= bpow radix2 902) by (rewrite V0; apply rnd_bound; [lia|rewrite P; lra]).
  destruct (add64 (w * y1)%float (v * y0)%float G1 G0) as (G & V).
  { apply rnd_safe with 903%Z; [lia|]; change 903%Z with (1 + 902)%Z; rewrite <- two_bpow.
    apply Rle_trans with (1 := Rabs_triang _ _); lra. }
  split; [exact G|]; fold y in V.
  destruct (rnd_err (value w * value y1)) as (e1 & h1 & He1 & Hh1 & X1); rewrite <- V1 in X1.
  destruct (rnd_err (value v * value y0)) as (e0 & h0 & He0 & Hh0 & X0); rewrite <- V0 in X0.
  destruct (rnd_add_err (value (w * y1)) (value (v * y0)) (value_fmt _) (value_fmt _)) as (e & He & X); rewrite <- V in X.
  set (p1 := value (w * y1)%float) in *; set (p0 := value (v * y0)%float) in *.
  set (a1 := value w * value y1) in *; set (a0 := value v * value y0) in *.
  set (u := ulp64) in *; set (h := eta64) in *.
  assert (D1 : Rabs (p1 - t * z1) <= value w * E + 4 * u * M + u * (value w * (M + E)) + h).
  { rewrite X1; replace (a1 * (1 + e1) + h1 - t * z1) with ((a1 - t * z1) + (a1 * e1 + h1)) by ring.
    apply Rle_trans with (1 := Rabs_triang _ _).
    assert (Rabs (a1 * e1 + h1) <= u * (value w * (M + E)) + h).
    { apply Rle_trans with (1 := Rabs_triang _ _); rewrite Rabs_mult, Rmult_comm.
      apply Rplus_le_compat; [apply Rmult_le_compat; try apply Rabs_pos; assumption|exact Hh1]. }
    lra. }
  assert (D0 : Rabs (p0 - (1 - t) * z0) <= value v * E + 5 * u * M + u * (value v * (M + E)) + h).
  { rewrite X0; replace (a0 * (1 + e0) + h0 - (1 - t) * z0) with ((a0 - (1 - t) * z0) + (a0 * e0 + h0)) by ring.
    apply Rle_trans with (1 := Rabs_triang _ _).
    assert (Rabs (a0 * e0 + h0) <= u * (value v * (M + E)) + h).
    { apply Rle_trans with (1 := Rabs_triang _ _); rewrite Rabs_mult, Rmult_comm.
      apply Rplus_le_compat; [apply Rmult_le_compat; try apply Rabs_pos; assumption|exact Hh0]. }
    lra. }
  set (z := t * z1 + (1 - t) * z0).
  assert (Mz : Rabs z <= M).
  { unfold z; apply Rle_trans with (1 := Rabs_triang _ _); rewrite !Rabs_mult, (Rabs_right t), (Rabs_right (1 - t)) by lra; nra. }
  set (D := (1 + u) * E + 9 * u * M + u * ((1 + u) * (M + E)) + 2 * h).
  assert (DD : Rabs (p1 + p0 - z) <= D).
  { replace (p1 + p0 - z) with ((p1 - t * z1) + (p0 - (1 - t) * z0)) by (unfold z; ring).
    apply Rle_trans with (1 := Rabs_triang _ _); unfold D.
    assert (S1 : value w * E + value v * E <= (1 + u) * E) by (rewrite <- Rmult_plus_distr_r; apply Rmult_le_compat_r; lra).
    assert (S2 : u * (value w * (M + E)) + u * (value v * (M + E)) <= u * ((1 + u) * (M + E))).
    { replace (u * (value w * (M + E)) + u * (value v * (M + E))) with (u * ((value w + value v) * (M + E))) by ring.
      apply Rmult_le_compat_l; [lra|]; apply Rmult_le_compat_r; lra. }
    lra. }
  rewrite X; replace ((p1 + p0) * (1 + e) - z) with ((p1 + p0 - z) + e * z + e * (p1 + p0 - z)) by ring.
  assert (L1 : Rabs (e * z) <= u * M) by (rewrite Rabs_mult; apply Rmult_le_compat; try apply Rabs_pos; assumption).
  assert (L2 : Rabs (e * (p1 + p0 - z)) <= u * D) by (rewrite Rabs_mult; apply Rmult_le_compat; try apply Rabs_pos; assumption).
  apply Rle_trans with (D + u * M + u * D).
  { apply Rle_trans with (1 := Rabs_triang _ _); apply Rplus_le_compat; [|exact L2].
    apply Rle_trans with (1 := Rabs_triang _ _); lra. }
  assert (uE : 0 <= u * E) by (apply Rmult_le_pos; lra); assert (uM : 0 <= u * M) by (apply Rmult_le_pos; lra).
  assert (uuE : 0 <= u * (u * E) <= / 1000 * (u * E)) by (split; [apply Rmult_le_pos; lra|apply Rmult_le_compat_r; lra]).
  assert (uuM : 0 <= u * (u * M) <= / 1000 * (u * M)) by (split; [apply Rmult_le_pos; lra|apply Rmult_le_compat_r; lra]).
  assert (uuuE : u * (u * (u * E)) <= / 1000 * (u * (u * E))) by (apply Rmult_le_compat_r; lra).
  assert (uuuM : u * (u * (u * M)) <= / 1000 * (u * (u * M))) by (apply Rmult_le_compat_r; lra).
  assert (uh : 0 <= u * h <= / 1000 * h) by (split; [apply Rmult_le_pos; lra|apply Rmult_le_compat_r; lra]).
  unfold D.
  replace ((1 + u) * E + 9 * u * M + u * ((1 + u) * (M + E)) + 2 * h + u * M + u * ((1 + u) * E + 9 * u * M + u * ((1 + u) * (M + E)) + 2 * h))
    with (E + 3 * (u * E) + 11 * (u * M) + 2 * h + 3 * (u * (u * E)) + 11 * (u * (u * M)) + u * (u * (u * E)) + u * (u * (u * M)) + 2 * (u * h)) by ring.
  replace (E + 5 * u * E + 23 / 2 * u * M + 3 * h) with (E + 5 * (u * E) + 23 / 2 * (u * M) + 3 * h) by ring.
  lra.
Qed.

(** ** All rounds *)
Section Rows.
Variables (U : list PrimFloat.float) (n p : nat) (k s : Z) (x : PrimFloat.float) (P : Z -> list PrimFloat.float) (M : R).
Notation zn := (Z.of_nat n).
Notation zp := (Z.of_nat p).
Hypothesis HW : within (- 2 ^ 1000) (2 ^ 1000) U.
Hypothesis HU : nondecreasing (values U).
Hypothesis HL : len (values U) = (zn + zp + 1)%Z.
Hypothesis Fx : finite64 x.
Hypothesis Hk : (zp <= k < zn)%Z.
Hypothesis Hs : (0 <= s)%Z.
Hypothesis Hx : kn (values U) k <= value x < kn (values U) (k + 1).
Hypothesis HP : forall i, (0 <= i < zn)%Z -> length (P i) = 3%nat /\ within (- M) M (P i).
Hypothesis HM : 0 <= M <= 2 ^ 900.
Hypothesis Hp : INR p <= 2 ^ 40.

Definition fk (i : Z) : Binary64 := nth (Z.to_nat i) U 0%float.
Definition pt (c : nat) (i : Z) : R := value (nth c (P i) 0%float).
Definition ins_err (j : nat) : R := INR j * (12 * ulp64 * M + 4 * eta64).

Lemma fk_ok i : (0 <= i < len U)%Z -> finite64 (fk i) /\ value (fk i) = kn (values U) i /\ Rabs (value (fk i)) <= 2 ^ 1000.
Proof.
  intros Hi; destruct (within_nth _ _ U i 0%float HW Hi) as (F & B).
  split; [exact F|]; split; [symmetry; apply kn_values; exact Hi|apply Rabs_le; exact B].
Qed.
Lemma ins_err_nonneg j : 0 <= ins_err j.
Proof.
  unfold ins_err; apply Rmult_le_pos; [apply pos_INR|].
  pose proof ulp64_pos; pose proof eta64_pos; assert (0 <= ulp64 * M) by (apply Rmult_le_pos; lra); lra.
Qed.
Lemma ins_err_small j : (j <= p)%nat -> 5 * ulp64 * ins_err j <= / 2 * (ulp64 * M) + eta64 /\ ins_err j <= 2 ^ 900.
Proof.
  intros Hj; apply le_INR in Hj; pose proof (pos_INR j) as J0; pose proof ulp64_pos as U0; pose proof eta64_pos as E0.
  assert (J1 : INR j * ulp64 <= / 2 ^ 13).
  { apply Rle_trans with (2 ^ 40 * ulp64); [apply Rmult_le_compat_r; lra|].
    unfold ulp64; replace (2 ^ 53) with (2 ^ 40 * 2 ^ 13) by (rewrite <- pow_add; reflexivity).
    rewrite Rinv_mult; right; field; split; apply Rgt_not_eq, pow_lt; lra. }
  assert (J2 : / 2 ^ 13 <= / 200) by (apply Rinv_le_contravar; [lra|cbn [pow]; lra]).
  assert (uM : 0 <= ulp64 * M) by (apply Rmult_le_pos; lra).
  assert (K1 : INR j * ulp64 * (ulp64 * M) <= / 200 * (ulp64 * M)) by (apply Rmult_le_compat_r; lra).
  assert (K2 : INR j * ulp64 * eta64 <= / 200 * eta64) by (apply Rmult_le_compat_r; lra).
  assert (K3 : INR j * ulp64 * M <= / 200 * M) by (apply Rmult_le_compat_r; lra).
  unfold ins_err; split.
  - replace (5 * ulp64 * (INR j * (12 * ulp64 * M + 4 * eta64)))
      with (60 * (INR j * ulp64 * (ulp64 * M)) + 20 * (INR j * ulp64 * eta64)) by ring; lra.
  - replace (INR j * (12 * ulp64 * M + 4 * eta64)) with (12 * (INR j * ulp64 * M) + 4 * (INR j * eta64)) by ring.
    assert (E1 : eta64 <= ulp64).
    { pose proof eta_ulp; assert (1 <= 2 ^ 100) by (apply pow_R1_Rle; lra); nra. }
    assert (INR j * eta64 <= INR j * ulp64) by (apply Rmult_le_compat_l; lra).
    assert (1 <= 2 ^ 900) by (apply pow_R1_Rle; lra); lra.
Qed.
Lemma ins_err_S j : (S j <= p)%nat ->
  ins_err j + 5 * ulp64 * ins_err j + 23 / 2 * ulp64 * M + 3 * eta64 <= ins_err (S j).
Proof.
  intros Hj; destruct (ins_err_small j ltac:(lia)) as (A & _).
  replace (ins_err (S j)) with (ins_err j + (12 * (ulp64 * M) + 4 * eta64)) by (unfold ins_err; rewrite S_INR; ring).
  replace (23 / 2 * ulp64 * M) with (23 / 2 * (ulp64 * M)) by ring; lra.
Qed.

Lemma row_of c v : length v = 3%nat -> (c < 3)%nat -> In (nth c v 0%float) v.
Proof. intros L Hc; apply nth_In; lia. Qed.
Lemma vadd_scale3 (w v : Binary64) (a b : list PrimFloat.float) c : length a = 3%nat -> length b = 3%nat -> (c < 3)%nat ->
  nth c (vadd (vscale w (a : list Binary64)) (vscale v (b : list Binary64))) (0%float : Binary64)
  = (w * nth c a 0 + v * nth c b 0)%float.
Proof.
  destruct a as [|a0 [|a1 [|a2 [|]]]]; try discriminate; destruct b as [|b0 [|b1 [|b2 [|]]]]; try discriminate; intros _ _ Hc.
  destruct c as [|[|[|]]]; try lia; reflexivity.
Qed.

Notation QF := (QX (K := Binary64) p k s fk (x : Binary64) (P : Z -> list Binary64)).
Lemma rows64 c : (c < 3)%nat -> forall j i, (s + Z.of_nat j <= zp)%Z -> (0 <= i < zn + Z.of_nat j)%Z ->
  finite64 (nth c (QF j i) 0%float) /\
  Rabs (value (nth c (QF j i) 0%float) - rctrl (values U) p k s (value x) (pt c) j i) <= ins_err j.
Proof.
  intros Hc; induction j as [|j IH]; intros i Hj Hi.
  - cbn [QX rctrl]; destruct (HP i ltac:(lia)) as (L & W); unfold within in W; rewrite Forall_forall in W.
    destruct (W _ (row_of c _ L Hc)) as (F & _); split; [exact F|].
    unfold pt, Rminus; rewrite Rplus_opp_r, Rabs_R0; apply ins_err_nonneg.
  - assert (Mo : ins_err j <= ins_err (S j)).
    { pose proof (ins_err_S j ltac:(lia)); pose proof (ins_err_nonneg j); pose proof ulp64_pos; pose proof eta64_pos.
      assert (0 <= ulp64 * M) by (apply Rmult_le_pos; lra); assert (0 <= ulp64 * ins_err j) by (apply Rmult_le_pos; lra); lra. }
    cbn [QX rctrl].
    destruct (Z.leb_spec i (k - zp + Z.of_nat j)) as [L1|L1]; [destruct (IH i ltac:(lia) ltac:(lia)) as (F & B); split; [exact F|lra]|].
    destruct (Z.leb_spec i (k - s)) as [L2|L2]; [|destruct (IH (i - 1)%Z ltac:(lia) ltac:(lia)) as (F & B); split; [exact F|lra]].
    destruct (IH i ltac:(lia) ltac:(lia)) as (F1 & B1); destruct (IH (i - 1)%Z ltac:(lia) ltac:(lia)) as (F0 & B0).
    assert (W3 : forall i', (0 <= i' < zn + Z.of_nat j)%Z -> length (QF j i') = 3%nat).
    { intros i' Hi'; apply Nat2Z.inj; apply (QX_width (K := Binary64) n p j k s); try assumption; try lia.
      intros i0 Hi0; unfold zlen; destruct (HP i0 Hi0) as (L & _); change (Z.of_nat (length (P i0)) = 3%Z); lia. }
    set (w := ins_alpha (K := Binary64) p fk (x : Binary64) j i).
    assert (E : nth c (vadd (vscale w (QF j i)) (vscale (1 - w)%num (QF j (i - 1)))) (0%float : Binary64)
       = (w * nth c (QF j i) 0 + (1 - w) * nth c (QF j (i - 1)) 0)%float).
    { exact (vadd_scale3 w (1 - w)%num _ _ c (W3 i ltac:(lia)) (W3 (i - 1)%Z ltac:(lia)) Hc). }
    rewrite E; clear E.
    rewrite len_values in HL.
    destruct (fk_ok i ltac:(lia)) as (Fa & Va & Ba).
    destruct (fk_ok (i + zp - Z.of_nat j) ltac:(lia)) as (Fb & Vb & Bb).
    pose proof (ralpha_den (values U) n p k (value x) HU Hx j i ltac:(lia)) as D.
    assert (Bx : Rabs (value x) <= 2 ^ 1000).
    { apply Rabs_le_inv in Ba; apply Rabs_le_inv in Bb; rewrite Va in Ba; rewrite Vb in Bb; apply Rabs_le; lra. }
    assert (T01 := ralpha_01 (values U) n p k (value x) HU Hx j i ltac:(lia)).
    rewrite <- Va, <- Vb in D.
    destruct (weight64 x (fk i) (fk (i + zp - Z.of_nat j)) Fx Fa Fb Bx Ba Bb D) as (Fw & Bw & Ew & Fv & Bv & Ev & Sw).
    rewrite Va, Vb in Ew, Ev; fold (ralpha (values U) p (value x) j i) in Ew, Ev.
    assert (MB : forall i', (0 <= i' < zn + Z.of_nat j)%Z -> Rabs (rctrl (values U) p k s (value x) (pt c) j i') <= M).
    { intros i' Hi'; apply Rabs_le; apply (rctrl_between (values U) n p k s (value x)); try assumption; try lia.
      intros m _ Hm; unfold pt; destruct (HP m Hm) as (L & W); unfold within in W; rewrite Forall_forall in W.
      apply (W _ (row_of c _ L Hc)). }
    destruct (blend64 w (1 - w)%float (nth c (QF j i) 0%float) (nth c (QF j (i - 1)) 0%float)
       (ralpha (values U) p (value x) j i) _ _ (ins_err j) M Fw Bw Ew Fv Bv Ev Sw T01 F1 F0
       (MB i ltac:(lia)) (MB (i - 1)%Z ltac:(lia)) B1 B0 HM) as (Fy & By).
    { split; [apply ins_err_nonneg|apply ins_err_small; lia]. }
    split; [exact Fy|]; eapply Rle_trans; [exact By|apply ins_err_S; lia].
Qed.
End Rows.

(** ** Multiplicity *)
Lemma isclose5_apart (a b : Binary64) : finite64 a -> finite64 b -> Rabs (value a) <= 2 ^ 1000 -> Rabs (value b) <= 2 ^ 1000 ->
  ~ close (101/10000000) (101/10000000000) (value a) (value b) -> isclose a b = false.
Proof.
  intros Fa Fb Ba Bb H; destruct lit5_ok as (F & V).
  apply (proj2 (isclose64 (lit_1em5 : Binary64) a b (1 / 100000) F ltac:(lra) V Fa Fb
    ltac:(rewrite bpow_powerRZ; exact Ba) ltac:(rewrite bpow_powerRZ; exact Bb))).
  unfold close in H; apply Rnot_le_lt in H; eapply Rle_lt_trans; [|exact H].
  pose proof (Rabs_pos (value b)); pose proof ulp64_small as (U0 & U1).
  assert (8 * ulp64 * (1 / 100000000 + 1 / 100000 * Rabs (value b)) <= 1/100 * (1 / 100000000 + 1 / 100000 * Rabs (value b)))
    by (apply Rmult_le_compat_r; lra).
  lra.
Qed.
Lemma multiplicity64 (x : Binary64) (U : list PrimFloat.float) : within (- 2 ^ 1000) (2 ^ 1000) U -> finite64 x ->
  Rabs (value x) <= 2 ^ 1000 ->
  (forall y, In y (values U) -> y <> value x -> ~ close (101/10000000) (101/10000000000) (value x) y) ->
  find_multiplicity x U = Z.of_nat (count_occ Req_EM_T (values U) (value x)).
Proof.
  intros HW Fx Bx; induction U as [|y U IH]; intros H; [reflexivity|].
  cbn [find_multiplicity values map count_occ]; inversion HW as [|? ? (Fy & By) HW']; subst.
  assert (By' : Rabs (value y) <= 2 ^ 1000) by (apply Rabs_le; exact By).
  assert (IH' := IH HW' (fun z Hz => H z (or_intror Hz))); unfold values in IH'.
  match goal with |- (_ + ?f = _)%Z => replace f with (Z.of_nat (count_occ Req_EM_T (map value U) (value x))) by (symmetry; exact IH') end.
  destruct (Req_EM_T (value y) (value x)) as [E|E].
  - rewrite (isclose5 x y Fx Fy Bx By'); [lia|]; rewrite E; unfold Rminus; rewrite Rplus_opp_r, Rabs_R0; lra.
  - rewrite (isclose5_apart x y Fx Fy Bx By'); [lia|]; apply H; [left; reflexivity|exact E].
Qed.

(** ** The function *)
Lemma values_insert (U : list PrimFloat.float) k (x : PrimFloat.float) r :
  values (firstn k U ++ repeat x r ++ skipn k U) = firstn k (values U) ++ repeat (value x) r ++ skipn k (values U).
Proof. unfold values; rewrite !map_app, firstn_map, skipn_map; do 2 f_equal; induction r as [|r IH]; cbn; [reflexivity|rewrite IH; reflexivity]. Qed.
Lemma nth_values c l : nth c (values l) 0 = value (nth c l 0%float).
Proof. replace 0 with (value 0%float) by exact value_0; apply map_nth. Qed.
Lemma zsum_Rabs a n f : Rabs (zsum a n f) <= zsum a n (fun i => Rabs (f i)).
Proof.
  induction n as [|n IH]; cbn [zsum]; [rewrite Rabs_R0; lra|]; apply Rle_trans with (1 := Rabs_triang _ _); lra.
Qed.
Lemma rctrl_const U n p k s x a : nondecreasing U -> (Z.of_nat p <= k < Z.of_nat n)%Z -> kn U k <= x < kn U (k + 1) -> (0 <= s)%Z ->
  forall r i, (s + Z.of_nat r <= Z.of_nat p)%Z -> (0 <= i < Z.of_nat n + Z.of_nat r)%Z -> rctrl U p k s x (fun _ => a) r i = a.
Proof.
  intros HU Hk Hx Hs r i Hr Hi.
  destruct (rctrl_between U n p k s x HU Hk Hx Hs (fun _ => a) a a r i Hr Hi) as (A & B); [intros; lra|lra].
Qed.

Lemma insertion_b64 p r k (U : list PrimFloat.float) (P : list (list PrimFloat.float)) (x : Binary64) M :
  within (- 2 ^ 1000) (2 ^ 1000) U -> knots_for p (len P) (values U) -> (p <= 2 ^ 40)%Z ->
  Forall (fun row => length row = 3%nat /\ within (- M) M row) P -> 0 <= M <= 2 ^ 900 ->
  finite64 x -> find_span (len P) p x U = Ok k -> (p <= k < len P)%Z ->
  kn (values U) k <= value x < kn (values U) (k + 1) ->
  (forall y, In y (values U) -> y <> value x -> ~ close (101/10000000) (101/10000000000) (value x) y) ->
  let s := Z.of_nat (count_occ Req_EM_T (values U) (value x)) in
  (0 <= r)%Z -> (s + r <= p)%Z ->
  let T := firstn (Z.to_nat (k + 1)) U ++ repeat x (Z.to_nat r) ++ skipn (Z.to_nat (k + 1)) U in
  let e := IZR r * (12 * ulp64 * M + 4 * tiny64) in
  exists (Q : list (list PrimFloat.float)) (q : list (list R)), curve_knot_insertion (K := Binary64) p U P x r = Ok (T, Q) /\
    len q = (len P + r)%Z /\ Forall2 (near64 e) Q q /\
    Forall (fun row => length row = 3%nat /\ Forall (fun z => - M <= z <= M) row) q /\
    (forall c u, (c < 3)%nat -> curve_sum (values T) (Z.to_nat p) (coords c q) u =
       curve_sum (values U) (Z.to_nat p) (coords c (map values P)) u) /\
    (clamped p (len P) (values U) -> forall c u, (c < 3)%nat ->
       Rabs (curve_sum (values T) (Z.to_nat p) (coords c (map values Q)) u -
             curve_sum (values U) (Z.to_nat p) (coords c (map values P)) u) <= e) /\
    (forall i, (0 <= i <= k - p)%Z -> nth (Z.to_nat i) Q [] = nth (Z.to_nat i) P []) /\
    (forall i, (k - s <= i < len P)%Z -> nth (Z.to_nat (i + r)) Q [] = nth (Z.to_nat i) P []).
Proof.
  intros HW (Hp & Hn & HL & HU) Hp40 HP HM Fx Hspan Hk Hx Hc s Hr Hm T e.
  set (n := length P) in *; set (q := Z.to_nat p); set (m := Z.to_nat r).
  assert (Eq : Z.of_nat q = p) by (unfold q; lia); assert (Em : Z.of_nat m = r) by (unfold m; lia).
  assert (En : len P = Z.of_nat n) by reflexivity.
  assert (HL' : len (values U) = (Z.of_nat n + Z.of_nat q + 1)%Z) by lia.
  assert (HLU : length U = (n + q + 1)%nat) by (rewrite len_values in HL'; unfold len in HL'; lia).
  assert (Hk' : (Z.of_nat q <= k < Z.of_nat n)%Z) by lia.
  assert (Hs : forall i, (k - s < i <= k)%Z -> kn (values U) i = value x).
  { intros i Hi; apply (count_span (values U) k (value x)); try assumption; lia. }
  assert (Bx : Rabs (value x) <= 2 ^ 1000).
  { pose proof (fk_ok U HW k ltac:(rewrite len_values in HL'; lia)) as (_ & Va & Ba).
    pose proof (fk_ok U HW (k + 1) ltac:(rewrite len_values in HL'; lia)) as (_ & Vb & Bb).
    rewrite Va in Ba; rewrite Vb in Bb; apply Rabs_le_inv in Ba; apply Rabs_le_inv in Bb; apply Rabs_le; lra. }
  set (Pf := fun i => nth (Z.to_nat i) P []).
  assert (HPf : forall i, (0 <= i < Z.of_nat n)%Z -> length (Pf i) = 3%nat /\ within (- M) M (Pf i)).
  { intros i Hi; rewrite Forall_forall in HP; apply HP; unfold Pf; apply nth_In; unfold n in *; lia. }
  assert (Hp' : INR q <= 2 ^ 40).
  { rewrite INR_IZR_INZ, Eq; replace (2 ^ 40) with (IZR (2 ^ 40)) by (cbn; lra); apply IZR_le; exact Hp40. }
  set (QF := QX (K := Binary64) q k s (fk U) x (Pf : Z -> list Binary64) m).
  set (f c := pt Pf c).
  set (qf := fun i => [rctrl (values U) q k s (value x) (f 0%nat) m i; rctrl (values U) q k s (value x) (f 1%nat) m i; rctrl (values U) q k s (value x) (f 2%nat) m i]).
  assert (Ee : ins_err M m = e) by (unfold ins_err, e; rewrite tiny_eta, INR_IZR_INZ, Em; reflexivity).
  assert (W3 : forall i, (0 <= i < Z.of_nat n + Z.of_nat m)%Z -> length (QF i) = 3%nat).
  { intros i Hi; apply Nat2Z.inj; apply (QX_width (K := Binary64) n q m k s); try assumption; try lia.
    intros i0 Hi0; unfold zlen; destruct (HPf i0 Hi0) as (L & _); change (Z.of_nat (length (Pf i0)) = 3%Z); lia. }
  assert (R3 := fun c Hc' => rows64 U n q k s x Pf M HW HU HL' Fx Hk' ltac:(lia) Hx HPf HM Hp' c Hc' m).
  assert (near_row : forall i, (0 <= i < Z.of_nat (n + m))%Z -> near64 e (QF i) (qf i)).
  { intros i Hi; pose proof (W3 i ltac:(lia)) as L.
    pose proof (R3 0%nat ltac:(lia) i ltac:(lia) ltac:(lia)) as A0; pose proof (R3 1%nat ltac:(lia) i ltac:(lia) ltac:(lia)) as A1;
      pose proof (R3 2%nat ltac:(lia) i ltac:(lia) ltac:(lia)) as A2.
    rewrite Ee in A0, A1, A2; fold QF in A0, A1, A2; unfold near64, qf.
    destruct (QF i) as [|y0 [|y1 [|y2 [|]]]]; try discriminate L.
    apply Forall2_cons; [exact A0|]; apply Forall2_cons; [exact A1|]; apply Forall2_cons; [exact A2|]; constructor. }
  assert (ET : values T = Tj (values U) n q k (value x) m).
  { unfold T; rewrite values_insert, Tj_list by (try exact HL'; exact Hk'); reflexivity. }
  assert (SumQ : forall c u, (c < 3)%nat -> curve_sum (values T) q (coords c (tab (n + m) qf)) u =
       curve_sum (values U) q (coords c (map values P)) u).
  { intros c u Hc'; unfold curve_sum; rewrite ET.
    replace (length (coords c (tab (n + m) qf))) with (n + m)%nat by (unfold coords; rewrite map_length, tab_length; reflexivity).
    replace (length (coords c (map values P))) with n by (unfold coords; rewrite !map_length; reflexivity).
    transitivity (zsum 0 (n + m) (fun i => bspline (Tj (values U) n q k (value x) m) q i u * rctrl (values U) q k s (value x) (f c) m i)).
    - apply zsum_ext; intros i Hi; f_equal; rewrite coords_tab, nth_tab by lia; rewrite Z2Nat.id by lia.
      unfold qf; destruct c as [|[|[|]]]; try lia; reflexivity.
    - rewrite (insert_sum (values U) n q k s (value x) HU HL' Hk' Hx ltac:(lia) Hs (f c) m u) by lia.
      apply zsum_ext; intros i Hi; f_equal; rewrite nth_coords; unfold f, pt, Pf.
      change (@nil R) with (values []); rewrite map_nth, nth_values; reflexivity. }
  exists (tab (n + m) QF), (tab (n + m) qf).
  split; [|split; [|split; [|split; [|split; [|split; [|split]]]]]].
  - pose proof (insertion_tables (K := Binary64) n q m k s (fk U) x (Pf : Z -> list Binary64) Hk' ltac:(lia) ltac:(lia)) as H.
    assert (EU : tab (n + q + 1) (fk U) = U) by (unfold fk; rewrite <- HLU; symmetry; apply (list_as_tab U 0%float)).
    assert (EP : tab n Pf = P) by (unfold Pf; symmetry; apply (list_as_tab P [])).
    assert (H1 : forall i, (0 <= i < Z.of_nat n)%Z -> zlen (Pf i) = 3%Z) by (intros i Hi; unfold zlen; destruct (HPf i Hi) as (-> & _); reflexivity).
    specialize (H H1); rewrite Eq, Em in H.
    transitivity (curve_knot_insertion (K := Binary64) p (tab (n + q + 1) (fk U)) (tab n Pf) x r).
    { rewrite EU, EP; reflexivity. }
    etransitivity; [apply H|].
    + rewrite EU; exact Hspan.
    + rewrite EU; apply multiplicity64; assumption.
    + do 2 f_equal; rewrite <- HLU.
      exact (tab_new_knot (K := Binary64) U x k m 0%float ltac:(lia) ltac:(change (zlen U) with (len U); rewrite len_values in HL'; lia)).
  - rewrite len_tab; lia.
  - apply Forall2_tab; exact near_row.
  - apply Forall_tab; intros i Hi; split; [reflexivity|]; unfold qf.
    assert (MB : forall c, (c < 3)%nat -> - M <= rctrl (values U) q k s (value x) (f c) m i <= M).
    { intros c Hc'; apply (rctrl_between (values U) n q k s (value x)); try assumption; try lia.
      intros i' _ Hi'; unfold f, pt; destruct (HPf i' Hi') as (L & W); unfold within in W; rewrite Forall_forall in W.
      apply W, nth_In; lia. }
    repeat (apply Forall_cons; [apply MB; lia|]); apply Forall_nil.
  - exact SumQ.
  - intros HC c u Hc'; rewrite <- SumQ by exact Hc'.
    unfold curve_sum.
    replace (length (coords c (tab (n + m) qf))) with (n + m)%nat by (unfold coords; rewrite map_length, tab_length; reflexivity).
    replace (length (coords c (map values (tab (n + m) QF)))) with (n + m)%nat by (unfold coords; rewrite !map_length, tab_length; reflexivity).
    rewrite <- zsum_minus.
    assert (NN : forall i, 0 <= bspline (values T) q i u).
    { intros i; apply bspline_nonneg; rewrite ET; apply Tj_nondecreasing; try assumption; lra. }
    apply Rle_trans with (zsum 0 (n + m) (fun i => bspline (values T) q i u * e)).
    + eapply Rle_trans; [apply zsum_Rabs|]; apply zsum_le; intros i Hi.
      rewrite <- Rmult_minus_distr_l, Rabs_mult, (Rabs_right (bspline _ _ _ _)) by (apply Rle_ge, NN).
      apply Rmult_le_compat_l; [apply NN|].
      rewrite !nth_coords, map_tab, !nth_tab, Z2Nat.id by lia.
      pose proof (R3 c Hc' i ltac:(lia) ltac:(lia)) as (_ & A); rewrite Ee in A; fold QF in A.
      replace (nth c (values (QF i)) 0) with (value (nth c (QF i) 0%float)) by (symmetry; apply nth_values).
      replace (nth c (qf i) 0) with (rctrl (values U) q k s (value x) (pt Pf c) m i); [exact A|].
      unfold qf; destruct c as [|[|[|]]]; try lia; reflexivity.
    + rewrite zsum_scal_r.
      assert (S1 : zsum 0 (n + m) (fun i => bspline (values T) q i u) <= 1).
      { rewrite ET; rewrite (zsum_ext _ _ _ (fun i => bspline (Tj (values U) n q k (value x) m) q i u * rctrl (values U) q k s (value x) (fun _ => 1) m i)).
        - rewrite (insert_sum (values U) n q k s (value x) HU HL' Hk' Hx ltac:(lia) Hs (fun _ => 1) m u) by lia.
          rewrite (zsum_ext _ _ _ (fun i => bspline (values U) q i u)) by (intros; ring).
          rewrite bspline_row_sum by (rewrite Eq, <- En; exact HC); match goal with |- (if ?b then _ else _) <= _ => destruct b end; lra.
        - intros i Hi; rewrite (rctrl_const (values U) n q k s (value x)) by (try assumption; lia); ring. }
      assert (0 <= e) by (rewrite <- Ee; apply ins_err_nonneg; exact HM).
      rewrite <- (Rmult_1_l e) at 2; apply Rmult_le_compat_r; assumption.
  - intros i Hi; rewrite nth_tab by lia; rewrite Z2Nat.id by lia; unfold QF.
    rewrite (QX_low (K := Binary64) n q m k s _ _ _ 0 m) by lia; reflexivity.
  - intros i Hi; rewrite nth_tab by lia; rewrite Z2Nat.id by lia; unfold QF.
    pose proof (QX_high (K := Binary64) n q m k s (fk U) x (Pf : Z -> list Binary64) 0 m i ltac:(lia) ltac:(lia) ltac:(lia)) as H.
    replace (i + Z.of_nat m - Z.of_nat 0)%Z with (i + r)%Z in H by lia; etransitivity; [exact H|reflexivity].
Qed.

(** A value of the domain that is not close to any knot. *)
Lemma insertion_new_b64 p r (U : list PrimFloat.float) (P : list (list PrimFloat.float)) (x : Binary64) M :
  within (- 2 ^ 1000) (2 ^ 1000) U -> clamped p (len P) (values U) -> (p <= 2 ^ 40)%Z ->
  Forall (fun row => length row = 3%nat /\ within (- M) M row) P -> 0 <= M <= 2 ^ 900 ->
  finite64 x -> kn (values U) p <= value x <= kn (values U) (len P) ->
  (forall y, In y (values U) -> ~ close (101/10000000) (101/10000000000) (value x) y) ->
  (0 <= r <= p)%Z ->
  let e := IZR r * (12 * ulp64 * M + 4 * tiny64) in
  exists (k : Z) (Q : list (list PrimFloat.float)) (q : list (list R)), let T := firstn (Z.to_nat (k + 1)) U ++ repeat x (Z.to_nat r) ++ skipn (Z.to_nat (k + 1)) U in
    (p <= k < len P)%Z /\ kn (values U) k < value x < kn (values U) (k + 1) /\
    curve_knot_insertion (K := Binary64) p U P x r = Ok (T, Q) /\
    len q = (len P + r)%Z /\ Forall2 (near64 e) Q q /\
    Forall (fun row => length row = 3%nat /\ Forall (fun z => - M <= z <= M) row) q /\
    (forall c u, (c < 3)%nat -> curve_sum (values T) (Z.to_nat p) (coords c q) u =
       curve_sum (values U) (Z.to_nat p) (coords c (map values P)) u) /\
    (forall c u, (c < 3)%nat ->
       Rabs (curve_sum (values T) (Z.to_nat p) (coords c (map values Q)) u -
             curve_sum (values U) (Z.to_nat p) (coords c (map values P)) u) <= e).
Proof.
  intros HW HC Hp40 HP HM Fx Hx Hc Hr e; pose proof HC as (HK & _); pose proof HK as (Hp & Hn & HL & HU).
  assert (FU : Forall finite64 U) by (eapply Forall_impl; [|exact HW]; intros y (F & _); exact F).
  rewrite len_values in HL.
  assert (KB : forall i, (0 <= i < len U)%Z -> Rabs (kn (values U) i) <= 2 ^ 1000).
  { intros i Hi; destruct (fk_ok U HW i Hi) as (_ & <- & B); exact B. }
  assert (Bx : Rabs (value x) <= 2 ^ 1000).
  { pose proof (KB p ltac:(lia)) as A; pose proof (KB (len P) ltac:(lia)) as B.
    apply Rabs_le_inv in A; apply Rabs_le_inv in B; apply Rabs_le; lra. }
  assert (IK : forall i, (0 <= i < len U)%Z -> In (kn (values U) i) (values U)).
  { intros i Hi; apply kn_In; rewrite len_values; exact Hi. }
  assert (N : forall i, (0 <= i < len U)%Z -> value x <> kn (values U) i).
  { intros i Hi E; apply (Hc _ (IK i Hi)); rewrite <- E; apply close_refl; lra. }
  destruct (find_span_b64 p (len P) x U Fx FU HK Hx Bx (KB (len P) ltac:(lia))) as (k & E & Hk & Hs).
  assert (Hkx : kn (values U) k < value x < kn (values U) (k + 1)).
  { destruct Hs as [(_ & C)|(C & _)].
    - exfalso; apply (Hc _ (IK (len P) ltac:(lia))); unfold close.
      rewrite Rabs_minus_sym, Rabs_right by lra; eapply Rle_trans; [exact C|].
      pose proof (Rabs_pos (kn (values U) (len P))); pose proof ulp64_small.
      assert (8 * ulp64 * (1 / 100000000 + 1 / 1000000 * Rabs (kn (values U) (len P))) <=
        1 / 100 * (1 / 100000000 + 1 / 1000000 * Rabs (kn (values U) (len P)))) by (apply Rmult_le_compat_r; lra); lra.
    - pose proof (N k ltac:(lia)); pose proof (N (k + 1)%Z ltac:(lia)); lra. }
  assert (C0 : count_occ Req_EM_T (values U) (value x) = O).
  { apply count_occ_not_In; intros HI; apply (Hc _ HI), close_refl; lra. }
  destruct (insertion_b64 p r k U P x M HW HK Hp40 HP HM Fx E ltac:(lia) ltac:(lra)
    ltac:(intros y Hy _; apply Hc; exact Hy) ltac:(lia) ltac:(rewrite C0; lia)) as (Q & q & H1 & H2 & H3 & H4 & H5 & H6 & _).
  exists k, Q, q; cbv zeta; split; [lia|]; split; [exact Hkx|]; split; [exact H1|]; split; [exact H2|]; split; [exact H3|].
  split; [exact H4|]; split; [exact H5|exact (H6 HC)].
Qed.
