(** Derivatives of basis functions (model: ModelBasis.v) on binary64 numbers. *)
From Coq Require Import Reals Lra Lia ZArith List Floats.
From Flocq Require Import Core.Core Relative.
From Verif Require Import Py PyLemmas Num ModelBasis Spec SpecB64 MathCox MathKnots MathJoin MathDeriv
  ProofNum ProofBasis ProofDers ProofDersAny ProofB64 ProofB64Basis ProofB64Span ProofB64Curve ProofB64Insert.
Import ListNotations.
Open Scope R_scope.

(** ** Relative errors *)
Notation u := ulp64.
(** [b] is [a] up to [m] roundings. *)
Definition rel (m : nat) (a b : R) : Prop := exists t, (1 - u) ^ m <= t <= / (1 - u) ^ m /\ b = a * t.

Lemma one_u : 0 < 1 - u < 1.
Proof. pose proof ulp64_small; lra. Qed.
Lemma low_pos m : 0 < (1 - u) ^ m <= 1.
Proof.
  pose proof one_u; induction m as [|m IH]; cbn [pow]; [lra|].
  split; [apply Rmult_lt_0_compat; lra|]; apply Rle_trans with (1 * 1); [apply Rmult_le_compat|]; lra.
Qed.
Lemma low_bern m : 1 - INR m * u <= (1 - u) ^ m.
Proof.
  pose proof ulp64_pos; pose proof one_u; induction m as [|m IH]; [cbn; lra|].
  cbn [pow]; rewrite S_INR; pose proof (pos_INR m).
  apply Rle_trans with ((1 - u) * (1 - INR m * u)); [|apply Rmult_le_compat_l; lra].
  assert (0 <= INR m * u * u) by (repeat apply Rmult_le_pos; lra); lra.
Qed.
Lemma rel_le m n a b : (m <= n)%nat -> rel m a b -> rel n a b.
Proof.
  intros H (t & (H1 & H2) & E); exists t; split; [|exact E].
  assert (L : (1 - u) ^ n <= (1 - u) ^ m).
  { replace n with ((n - m) + m)%nat by lia; rewrite pow_add; rewrite <- (Rmult_1_l ((1 - u) ^ m)) at 2.
    pose proof (low_pos m); apply Rmult_le_compat_r; [lra|apply low_pos]. }
  pose proof (low_pos n); split; [lra|]; apply Rle_trans with (1 := H2); apply Rinv_le_contravar; lra.
Qed.
Lemma rel_refl a : rel 0 a a.
Proof. exists 1; cbn [pow]; rewrite Rinv_1; split; [lra|ring]. Qed.
Lemma rel_trans m n a b c : rel m a b -> rel n b c -> rel (m + n) a c.
Proof.
  intros (t & (H1 & H2) & ->) (t' & (H3 & H4) & ->); exists (t * t'); split; [|ring].
  pose proof (low_pos m); pose proof (low_pos n); rewrite pow_add, Rinv_mult.
  split; apply Rmult_le_compat; lra.
Qed.
Lemma rel_round e a : Rabs e <= u -> rel 1 a (a * (1 + e)).
Proof.
  intros H; apply Rabs_le_inv in H; exists (1 + e); split; [|reflexivity]; pose proof one_u; rewrite pow_1.
  split; [lra|]; apply Rle_trans with (1 + u); [lra|].
  apply (Rmult_le_reg_r (1 - u)); [lra|]; rewrite Rinv_l by lra; nra.
Qed.
Lemma rel_inv m a b : a <> 0 -> rel m a b -> rel m (/ a) (/ b).
Proof.
  intros Ha (t & (H1 & H2) & ->); pose proof (low_pos m); exists (/ t); split.
  - assert (0 < t) by lra; split; [|apply Rinv_le_contravar; lra].
    rewrite <- (Rinv_inv ((1 - u) ^ m)); apply Rinv_le_contravar; lra.
  - rewrite Rinv_mult; reflexivity.
Qed.
Lemma rel_mul_l m a b c : rel m a b -> rel m (c * a) (c * b).
Proof. intros (t & H & ->); exists t; split; [exact H|ring]. Qed.
Lemma rel_mul m n a b c d : rel m a b -> rel n c d -> rel (m + n) (a * c) (b * d).
Proof.
  intros H1 H2; apply rel_trans with (b * c).
  - rewrite (Rmult_comm a), (Rmult_comm b); apply rel_mul_l; exact H1.
  - apply rel_mul_l; exact H2.
Qed.
Lemma rel_div m n a b c d : c <> 0 -> rel m a b -> rel n c d -> rel (m + n) (a / c) (b / d).
Proof. intros Hc H1 H2; apply rel_mul; [exact H1|apply rel_inv; assumption]. Qed.
Lemma rel_opp m a b : rel m a b -> rel m (- a) (- b).
Proof. intros (t & H & ->); exists t; split; [exact H|ring]. Qed.
Lemma rel_pos_sum m a b c d : 0 <= a -> 0 <= c -> rel m a b -> rel m c d -> rel m (a + c) (b + d).
Proof.
  intros Ha Hc (t & (H1 & H2) & ->) (t' & (H3 & H4) & ->); pose proof (low_pos m).
  destruct (Req_dec (a + c) 0) as [E|E].
  - exists 1; assert (a = 0) as -> by lra; assert (c = 0) as -> by lra; split; [|ring].
    split; [lra|]; rewrite <- Rinv_1 at 1; apply Rinv_le_contravar; lra.
  - exists ((a * t + c * t') / (a + c)); split; [|field; exact E].
    assert (0 < a + c) by lra; split; apply (Rmult_le_reg_r (a + c)); try assumption;
      unfold Rdiv; rewrite Rmult_assoc, Rinv_l, Rmult_1_r by lra.
    + pose proof (Rmult_le_compat_l a _ _ Ha H1); pose proof (Rmult_le_compat_l c _ _ Hc H3); lra.
    + pose proof (Rmult_le_compat_l a _ _ Ha H2); pose proof (Rmult_le_compat_l c _ _ Hc H4); lra.
Qed.
Lemma rel_abs m a b : rel m a b -> Rabs b <= Rabs a * / (1 - u) ^ m /\ Rabs (b - a) <= Rabs a * (/ (1 - u) ^ m - 1) /\ Rabs a * (1 - u) ^ m <= Rabs b.
Proof.
  intros (t & (H1 & H2) & ->); pose proof (low_pos m) as Hm; pose proof (Rabs_pos a).
  rewrite Rabs_mult, (Rabs_right t) by lra.
  split; [apply Rmult_le_compat_l; lra|]; split; [|apply Rmult_le_compat_l; lra].
  replace (a * t - a) with (a * (t - 1)) by ring; rewrite Rabs_mult; apply Rmult_le_compat_l; [lra|].
  apply Rabs_le; split; [|lra].
  assert (2 <= (1 - u) ^ m + / (1 - u) ^ m); [|lra].
  set (y := (1 - u) ^ m) in *.
  assert (0 <= (1 - y) * (1 - y) * / y) by (apply Rmult_le_pos; [apply Rle_0_sqr|apply Rlt_le, Rinv_0_lt_compat; lra]).
  replace ((1 - y) * (1 - y) * / y) with (/ y - 2 + y) in H0 by (field; lra); lra.
Qed.
(** Few roundings change little. *)
Lemma low_inv m : INR m * u <= / 4 -> / (1 - u) ^ m <= 1 + 4 / 3 * (INR m * u).
Proof.
  intros H; pose proof (low_bern m) as B; pose proof (low_pos m); pose proof (pos_INR m); pose proof ulp64_pos.
  assert (0 <= INR m * u) by (apply Rmult_le_pos; lra).
  apply Rle_trans with (/ (1 - INR m * u)); [apply Rinv_le_contravar; lra|].
  apply (Rmult_le_reg_r (1 - INR m * u)); [lra|]; rewrite Rinv_l by lra; nra.
Qed.

(** Rounding a number that is not tiny. *)
Lemma rnd_rel z : / 2 <= Rabs z -> exists e, Rabs e <= u /\ rnd z = z * (1 + e).
Proof.
  intros Hz; destruct (relative_error_N_FLT_ex radix2 (-1074) 53 eq_refl (fun x => negb (Z.even x)) z) as (e & He & E).
  - apply Rle_trans with (2 := Hz); change (/ 2) with (bpow radix2 (-1)); apply bpow_le; lia.
  - exists e; split; [rewrite ulp64_half; exact He|exact E].
Qed.

(** ** Steps of the coefficient table *)
Lemma p901 : bpow radix2 901 = 2 * 2 ^ 900.
Proof.
  replace (2 ^ 900) with (bpow radix2 900) by (rewrite bpow_powerRZ; reflexivity).
  change 2 with (bpow radix2 1); rewrite <- bpow_plus; reflexivity.
Qed.
Lemma low_inv2 m : INR m * u <= / 4 -> / (1 - u) ^ m <= 4 / 3.
Proof. intros H; pose proof (low_inv m H); lra. Qed.
Lemma low_half m : INR m * u <= / 4 -> / 2 <= (1 - u) ^ m.
Proof. intros H; pose proof (low_bern m); lra. Qed.

Lemma rel_big m a b : INR m * u <= / 4 -> Rabs a <= 2 ^ 900 -> rel m a b -> Rabs b <= bpow radix2 901.
Proof.
  intros Hm Ha H; destruct (rel_abs m a b H) as (B & _ & _); rewrite p901.
  pose proof (low_inv2 m Hm); pose proof (Rabs_pos a).
  assert (0 <= / (1 - u) ^ m) by (apply Rlt_le, Rinv_0_lt_compat, low_pos).
  apply Rle_trans with (1 := B); rewrite Rmult_comm; apply Rmult_le_compat; lra.
Qed.

Lemma div_step m (x d : PrimFloat.float) X D : finite64 x -> finite64 d -> rel m X (value x) -> rel 2 D (value d) ->
  0 < D -> 1 <= Rabs (X / D) <= 2 ^ 900 -> INR (m + 3) * u <= / 4 ->
  finite64 (x / d) /\ rel (m + 3) (X / D) (value (x / d)).
Proof.
  intros Fx Fd HX HD D0 HB Hm.
  assert (Hm2 : INR (m + 2) * u <= / 4).
  { apply Rle_trans with (2 := Hm); pose proof ulp64_pos; apply Rmult_le_compat_r; [lra|apply le_INR; lia]. }
  pose proof (rel_div m 2 X (value x) D (value d) ltac:(lra) HX HD) as HQ.
  destruct (rel_abs _ _ _ HQ) as (_ & _ & Q3).
  assert (Q1 : / 2 <= Rabs (value x / value d)).
  { apply Rle_trans with (2 := Q3); pose proof (low_half _ Hm2); rewrite <- (Rmult_1_l (/ 2)); apply Rmult_le_compat; lra. }
  destruct (div64 x d Fx Fd) as (F & V).
  { destruct HD as (t & Ht & ->); pose proof (low_pos 2); apply Rgt_not_eq, Rmult_lt_0_compat; lra. }
  { apply rnd_safe with 901%Z; [lia|]; apply rel_big with (m + 2)%nat (X / D); [exact Hm2|lra|exact HQ]. }
  split; [exact F|]; rewrite V; destruct (rnd_rel _ Q1) as (e & He & ->).
  replace (m + 3)%nat with ((m + 2) + 1)%nat by lia; apply rel_trans with (1 := HQ), rel_round, He.
Qed.

Lemma sub_step m (x y : PrimFloat.float) X Y : finite64 x -> finite64 y -> rel m X (value x) -> rel m Y (value y) ->
  (0 <= X /\ Y <= 0) \/ (X <= 0 /\ 0 <= Y) -> Rabs (X - Y) <= 2 ^ 900 -> INR m * u <= / 4 ->
  finite64 (x - y) /\ rel (m + 1) (X - Y) (value (x - y)).
Proof.
  intros Fx Fy HX HY HS HB Hm.
  assert (HR : rel m (X - Y) (value x - value y)).
  { destruct HS as [HS|HS].
    - apply (rel_pos_sum m X (value x) (- Y) (- value y)); try lra; [exact HX|apply rel_opp; exact HY].
    - replace (X - Y) with (- (- X + Y)) by ring; replace (value x - value y) with (- (- value x + value y)) by ring.
      apply rel_opp, rel_pos_sum; try lra; [apply rel_opp; exact HX|exact HY]. }
  destruct (sub64 x y Fx Fy) as (F & V).
  { apply rnd_safe with 901%Z; [lia|]; apply rel_big with m (X - Y); assumption. }
  split; [exact F|]; rewrite V.
  destruct (rnd_sub_err (value x) (value y) (value_fmt _) (value_fmt _)) as (e & He & ->).
  apply rel_trans with (1 := HR), rel_round, He.
Qed.

(** ** Binomial coefficients and signs *)
Fixpoint bn (k : nat) (j : Z) : R :=
  match k with O => if (j =? 0)%Z then 1 else 0 | S m => bn m j + bn m (j - 1) end.
Lemma bn_nonneg k : forall j, 0 <= bn k j.
Proof. induction k as [|k IH]; intros j; cbn [bn]; [destruct (j =? 0)%Z; lra|pose proof (IH j); pose proof (IH (j - 1)%Z); lra]. Qed.
Lemma bn_out k : forall j, (j < 0 \/ Z.of_nat k < j)%Z -> bn k j = 0.
Proof.
  induction k as [|k IH]; intros j Hj; cbn [bn]; [destruct (Z.eqb_spec j 0); [lia|reflexivity]|].
  rewrite !IH by lia; ring.
Qed.
Lemma bn_sum k : zsum 0 (S k) (bn k) = 2 ^ k.
Proof.
  induction k as [|k IH]; [cbn; lra|].
  change (bn (S k)) with (fun j => bn k j + bn k (j - 1)); rewrite zsum_plus.
  assert (E1 : zsum 0 (S (S k)) (bn k) = 2 ^ k).
  { rewrite <- IH; apply zsum_window; try lia; intros i Hi [H|H]; apply bn_out; lia. }
  assert (E2 : zsum 0 (S (S k)) (fun j => bn k (j - 1)) = 2 ^ k).
  { rewrite zsum_first, (bn_out k (0 - 1)) by lia; rewrite zsum_shift, Rplus_0_l, <- IH.
    apply zsum_ext; intros i Hi; f_equal; lia. }
  rewrite E1, E2; cbn [pow]; ring.
Qed.
Lemma bn_le k j : bn k j <= 2 ^ k.
Proof.
  destruct (Z_lt_dec j 0) as [H|H]; [rewrite bn_out by lia; apply pow_le; lra|].
  destruct (Z_lt_dec (Z.of_nat k) j) as [H'|H']; [rewrite bn_out by lia; apply pow_le; lra|].
  rewrite <- bn_sum; apply (zsum_term 0 (S k) (bn k) j); [lia|apply bn_nonneg].
Qed.
Definition sg (j : Z) : R := if Z.even j then 1 else -1.
Lemma sg_prev j : sg (j - 1) = - sg j.
Proof. unfold sg; rewrite Z.even_sub; destruct (Z.even j); cbn; lra. Qed.
Lemma sg_abs j z : 0 <= sg j * z -> Rabs z = sg j * z.
Proof.
  unfold sg; destruct (Z.even j); intros H; [rewrite Rabs_right by lra; ring|rewrite Rabs_left1 by lra; ring].
Qed.

Lemma zsum_const a n c : zsum a n (fun _ => c) = INR n * c.
Proof. induction n as [|n IH]; [cbn; ring|cbn [zsum]; rewrite IH, S_INR; ring]. Qed.

(** ** The tables *)
Section Ders64.
Variables (U : list Binary64) (s : Z) (x : Binary64) (p : nat).
Hypothesis HW : within 0 1 U.
Hypothesis HU : nondecreasing (values U).
Hypothesis Fx : finite64 x.
Hypothesis Hx : kn (values U) s <= value x <= kn (values U) (s + 1).
Hypothesis Hgap : bpow radix2 (-1000) <= kn (values U) (s + 1) - kn (values U) s.
Hypothesis Hlo : (Z.of_nat p - 1 <= s)%Z.
Hypothesis Hs0 : (0 <= s)%Z.
Hypothesis Hhi : (s + Z.of_nat p < len U)%Z.
Hypothesis Hhi1 : (s + 1 < len U)%Z.
Hypothesis Hp : INR p <= 2 ^ 40.

Notation kU := (kn (values U)).
Notation N q i := (piece (values U) s q i (value x)).
Notation g := (kU (s + 1)%Z - kU s).
Notation zp := (Z.of_nat p).
Notation Dk j r := (kU (s + r + 1)%Z - kU (s + 1 - j + r)%Z).

Lemma Hs : kU s < kU (s + 1)%Z.
Proof. apply (s_lt U s Hgap). Qed.
Lemma g_pos : 0 < g.
Proof. pose proof Hs; lra. Qed.
Lemma g_le_1 : g <= 1.
Proof.
  destruct (fU_val U HW s ltac:(lia)) as (_ & _ & A); destruct (fU_val U HW (s + 1) ltac:(lia)) as (_ & _ & B); lra.
Qed.

Lemma gN_ok q : (q <= p)%nat -> okN U s x q (gN U s x q).
Proof.
  intros Hq.
  assert (Hq' : INR q <= 2 ^ 40) by (apply Rle_trans with (2 := Hp); apply le_INR; exact Hq).
  destruct (basis_loop U s x q HW HU Fx Hx Hgap ltac:(lia) Hs0 ltac:(lia) Hhi1 Hq') as (f & E & HF & HE).
  rewrite (basis_functions_any U s x q) in E; [|lia|change (zlen U) with (len U); lia].
  assert (EQ : forall r, (0 <= r <= Z.of_nat q)%Z -> gN U s x q r = f r).
  { intros r Hr.
    pose proof (f_equal (fun l => match l with Ok l => nth (Z.to_nat r) l (0%num : Binary64) | _ => 0%num end) E) as E'; cbv beta iota in E'.
    rewrite !nth_tab in E' by lia; rewrite Z2Nat.id in E' by lia; exact E'. }
  split; [intros r Hr; rewrite EQ by lia; apply HF; lia|].
  rewrite (err_ext U s x p q (S q) _ f); [exact HE|intros i Hi; apply EQ; lia].
Qed.

Lemma gD_ok j r : (0 <= r < j)%Z -> (j <= zp)%Z ->
  finite64 (gD U s x j r) /\ rel 2 (Dk j r) (value (gD U s x j r)) /\ g <= Dk j r <= 1.
Proof.
  intros Hr Hj.
  destruct (fL_ok U s x p HW HU Fx Hx Hs0 Hhi1 (j - r) ltac:(lia)) as (FL & BL & BL' & e1 & He1 & E1).
  destruct (fR_ok U s x p HW HU Fx Hx Hs0 Hhi1 (r + 1) ltac:(lia) ltac:(lia)) as (FR & BR & BR' & e2 & He2 & E2).
  change (fL U s x (j - r)) with (gL U s x (j - r)) in *; change (fR U s x (r + 1)) with (gR U s x (r + 1)) in *.
  set (L := gL U s x (j - r)) in *; set (Q := gR U s x (r + 1)) in *.
  assert (ED : Dk j r = (kU (s + (r + 1))%Z - value x) + (value x - kU (s + 1 - (j - r))%Z)).
  { replace (s + (r + 1))%Z with (s + r + 1)%Z by lia; replace (s + 1 - (j - r))%Z with (s + 1 - j + r)%Z by lia; ring. }
  destruct (add64 Q L FR FL) as (F & V).
  { apply rnd_safe with 1%Z; [lia|]; change (bpow radix2 1) with 2; apply Rabs_le; lra. }
  destruct (rnd_add_err (value Q) (value L) (value_fmt _) (value_fmt _)) as (e3 & He3 & E3).
  split; [exact F|]; split.
  - change (value (gD U s x j r)) with (value (PrimFloat.add Q L)); rewrite V, E3, ED.
    change 2%nat with (1 + 1)%nat; apply rel_trans with (value Q + value L); [|apply rel_round; exact He3].
    apply rel_pos_sum; try lra; [rewrite E2; apply rel_round; exact He2|rewrite E1; apply rel_round; exact He1].
  - destruct (fU_val U HW (s + r + 1) ltac:(lia)) as (_ & _ & A); destruct (fU_val U HW (s + 1 - j + r) ltac:(lia)) as (_ & _ & B).
    pose proof (kn_mono _ HU (s + 1) (s + r + 1) ltac:(lia)); pose proof (kn_mono _ HU (s + 1 - j + r) s ltac:(lia)); lra.
Qed.

Section Order.
Variable kmax : nat.
Hypothesis Hkmax : (kmax <= p)%nat.
Hypothesis Hbig : (2 / g) ^ kmax <= 2 ^ 900.

Lemma g2 : 2 <= 2 / g.
Proof.
  pose proof g_pos; pose proof g_le_1; apply (Rmult_le_reg_r g); [lra|].
  unfold Rdiv; rewrite Rmult_assoc, Rinv_l by lra; lra.
Qed.
Lemma pow_le_max k : (k <= kmax)%nat -> (2 / g) ^ k <= 2 ^ 900.
Proof. intros Hk; apply Rle_trans with (2 := Hbig); apply Rle_pow; [pose proof g2; lra|exact Hk]. Qed.
Lemma few m : (m <= 5 * kmax + 5)%nat -> INR m * u <= / 512.
Proof.
  intros Hm; pose proof ulp64_tiny as Ht; pose proof ulp64_pos.
  apply Rle_trans with (2 ^ 44 * u).
  - apply Rmult_le_compat_r; [lra|].
    apply Rle_trans with (INR (5 * p + 5)); [apply le_INR; lia|rewrite plus_INR, mult_INR; cbn [INR]].
    apply Rle_trans with (6 * 2 ^ 40); [|cbn [pow]; lra].
    assert (5 <= 2 ^ 40) by (cbn [pow]; lra); lra.
  - replace (2 ^ 53) with (2 ^ 44 * 512) in Ht by (cbn [pow]; ring); lra.
Qed.

Section Function.
Variable r : Z.
Hypothesis Hr : (0 <= r <= zp)%Z.
Notation a k j := (ac (values U) s p r k j).
Notation lo k := (lo r k).
Notation hi k := (hi p r k).

Lemma cn_bound k j : (k <= kmax)%nat -> bn k j / g ^ k <= 2 ^ 900.
Proof.
  intros Hk; apply Rle_trans with (2 := pow_le_max k Hk); unfold Rdiv.
  rewrite Rpow_mult_distr, pow_inv; apply Rmult_le_compat_r; [|apply bn_le].
  apply Rlt_le, Rinv_0_lt_compat, pow_lt, g_pos.
Qed.

Lemma gA_ok k : (k <= kmax)%nat -> forall j, (lo (Z.of_nat k) <= j <= hi (Z.of_nat k))%Z ->
  finite64 (gA U s x p r k j) /\ rel (4 * k) (a (Z.of_nat k) j) (value (gA U s x p r k j)) /\
  1 <= sg j * a (Z.of_nat k) j <= bn k j / g ^ k.
Proof.
  induction k as [|k IH]; intros Hk j Hj.
  - unfold ProofDers.lo, ProofDers.hi in Hj; assert (j = 0)%Z as -> by lia.
    cbn [gA]; unfold ac; cbn [Z.of_nat Z.to_nat acoef bn pow Z.eqb sg Z.even].
    split; [exact finite_1|]; split; [rewrite value_1; apply rel_refl|].
    unfold sg; cbn [Z.even]; lra.
  - specialize (IH ltac:(lia)).
    pose proof g_pos as G0; pose proof g_le_1 as G1.
    assert (Gk : 0 < g ^ k) by (apply pow_lt; exact G0).
    assert (Hj2 : (0 <= j <= Z.of_nat (S k))%Z) by (unfold ProofDers.lo, ProofDers.hi in Hj; lia).
    destruct (gD_ok (zp - Z.of_nat k) (r - Z.of_nat (S k) + j)) as (FD & RD & BD);
      [unfold ProofDers.lo, ProofDers.hi in Hj; lia|lia|].
    pose proof (ac_step (values U) s p HU Hs r (Z.of_nat (S k)) j ltac:(lia) Hj) as EA.
    replace (zp - Z.of_nat (S k) + 1)%Z with (zp - Z.of_nat k)%Z in EA by lia.
    replace (Z.of_nat (S k) - 1)%Z with (Z.of_nat k) in EA by lia.
    set (D := Dk (zp - Z.of_nat k) (r - Z.of_nat (S k) + j)) in *.
    set (d := gD U s x (zp - Z.of_nat k) (r - Z.of_nat (S k) + j)) in *.
    assert (D0 : 0 < D) by lra.
    (* the exact coefficients before and after the division *)
    assert (Hin : (1 <= j -> lo (Z.of_nat k) <= j - 1 <= hi (Z.of_nat k))%Z) by (unfold ProofDers.lo, ProofDers.hi in *; lia).
    assert (Hin' : (j <= Z.of_nat k -> lo (Z.of_nat k) <= j <= hi (Z.of_nat k))%Z) by (unfold ProofDers.lo, ProofDers.hi in *; lia).
    assert (HA : 0 <= sg j * a (Z.of_nat k) j <= bn k j / g ^ k /\ ((j <= Z.of_nat k)%Z -> 1 <= sg j * a (Z.of_nat k) j)).
    { destruct (Z_le_dec j (Z.of_nat k)) as [L|L]; [destruct (IH j (Hin' L)) as (_ & _ & B); split; [lra|intros; lra]|].
      unfold ac; rewrite acoef_out by lia; rewrite bn_out by lia; split; [|intros; lia].
      unfold Rdiv; rewrite Rmult_0_l, Rmult_0_r; lra. }
    assert (HB : 0 <= - (sg j * a (Z.of_nat k) (j - 1)) <= bn k (j - 1) / g ^ k /\ ((1 <= j)%Z -> 1 <= - (sg j * a (Z.of_nat k) (j - 1)))).
    { destruct (Z_le_dec 1 j) as [L|L].
      - destruct (IH (j - 1)%Z (Hin L)) as (_ & _ & B); rewrite sg_prev in B; split; [lra|intros; lra].
      - unfold ac; rewrite acoef_out by lia; rewrite bn_out by lia; split; [|intros; lia].
        unfold Rdiv; rewrite Rmult_0_l, Rmult_0_r; lra. }
    set (X := a (Z.of_nat k) j) in *; set (Y := a (Z.of_nat k) (j - 1)%Z) in *.
    assert (HXY : 1 <= sg j * (X - Y) <= bn (S k) j / g ^ k).
    { cbn [bn]; unfold Rdiv; rewrite Rmult_plus_distr_r.
      fold (bn k j / g ^ k) (bn k (j - 1) / g ^ k).
      destruct HA as (HA & HA'); destruct HB as (HB & HB').
      split; [|lra]; destruct (Z_le_dec 1 j) as [L|L]; [specialize (HB' L); lra|].
      specialize (HA' ltac:(lia)); lra. }
    assert (HQ : 1 <= sg j * ((X - Y) / D) <= bn (S k) j / g ^ (S k)).
    { assert (EG : bn (S k) j / g ^ S k = bn (S k) j / g ^ k * / g) by (cbn [pow]; field; split; [|apply pow_nonzero]; lra).
      replace (sg j * ((X - Y) / D)) with (sg j * (X - Y) * / D) by (field; lra).
      rewrite EG; assert (ID : 1 <= / D <= / g) by (split; [rewrite <- Rinv_1|]; apply Rinv_le_contravar; lra).
      split; [apply Rle_trans with (1 * 1); [lra|]|]; apply Rmult_le_compat; lra. }
    assert (AQ : 1 <= Rabs ((X - Y) / D) <= 2 ^ 900).
    { rewrite (sg_abs j) by lra; split; [lra|]; apply Rle_trans with (1 := proj2 HQ), cn_bound; lia. }
    rewrite EA; fold D.
    assert (Hm : INR (4 * k + 1 + 3) * u <= / 4) by (apply Rle_trans with (1 := few (4 * k + 1 + 3) ltac:(lia)); clear; lra).
    assert (Hm0 : INR (4 * k) * u <= / 4) by (apply Rle_trans with (1 := few (4 * k) ltac:(lia)); clear; lra).
    assert (Hm3 : INR (4 * k + 3) * u <= / 4) by (apply Rle_trans with (1 := few (4 * k + 3) ltac:(lia)); clear; lra).
    enough (finite64 (gA U s x p r (S k) j) /\ rel (4 * S k) ((X - Y) / D) (value (gA U s x p r (S k) j))) by tauto.
    cbn [gA]; fold d.
    destruct (Z.eqb_spec j 0) as [E0|E0]; [|destruct (Z.eqb_spec j (Z.of_nat (S k))) as [E1|E1]].
    + assert (Y = 0) as EY by (unfold Y, ac; apply acoef_out; lia).
      destruct (IH j (Hin' ltac:(lia))) as (F & RX & _); fold X in RX; rewrite E0 in F, RX.
      destruct (div_step (4 * k) (gA U s x p r k 0) d (X - Y) D F FD) as (F' & R'); try assumption.
      { rewrite EY, Rminus_0_r; exact RX. }
      split; [exact F'|]; apply rel_le with (4 * k + 3)%nat; [lia|exact R'].
    + assert (X = 0) as EX by (unfold X, ac; apply acoef_out; lia).
      destruct (IH (j - 1)%Z (Hin ltac:(lia))) as (F & RY & _); fold Y in RY.
      destruct (opp64 _ F) as (FO & VO).
      destruct (div_step (4 * k) (- gA U s x p r k (j - 1))%float d (X - Y) D FO FD) as (F' & R'); try assumption.
      { rewrite EX, VO, Rminus_0_l; apply rel_opp; exact RY. }
      split; [exact F'|]; apply rel_le with (4 * k + 3)%nat; [lia|exact R'].
    + destruct (IH j (Hin' ltac:(lia))) as (FX & RX & _); destruct (IH (j - 1)%Z (Hin ltac:(lia))) as (FY & RY & _).
      fold X in RX; fold Y in RY.
      destruct (sub_step (4 * k) _ _ X Y FX FY RX RY) as (FS & RS).
      { unfold sg in HA, HB; destruct (Z.even j); [left|right]; lra. }
      { rewrite (sg_abs j) by lra; apply Rle_trans with (1 := proj2 HXY).
        apply Rle_trans with (2 := cn_bound (S k) j Hk); cbn [pow]; unfold Rdiv.
        apply Rmult_le_compat_l; [apply bn_nonneg|]; apply Rinv_le_contravar; [apply Rmult_lt_0_compat; lra|].
        rewrite <- (Rmult_1_l (g ^ k)) at 2; apply Rmult_le_compat_r; lra. }
      { exact Hm0. }
      destruct (div_step (4 * k + 1) _ d (X - Y) D FS FD RS RD D0 AQ) as (F' & R').
      { exact Hm. }
      split; [exact F'|]; apply rel_le with (4 * k + 1 + 3)%nat; [lia|exact R'].
Qed.

(** The sum of order [kmax]. *)
Notation k := kmax.
Hypothesis Hk1 : (1 <= k)%nat.
Notation v j := (value (gA U s x p r k j)).
Notation w j := (value (gN U s x (p - k) (r - Z.of_nat k + j)%Z)).
Notation Nx j := (N (p - k)%nat (s - Z.of_nat (p - k) + (r - Z.of_nat k + j))%Z).
Notation c j := (bn k j / g ^ k).
Notation L := (lo (Z.of_nat k)).
Notation n := (Z.to_nat (hi (Z.of_nat k) + 1 - L)).

Lemma sum_part f m : (forall j, 0 <= f j) -> (m <= n)%nat -> zsum L m f <= zsum 0 (S k) f.
Proof.
  intros Hf Hm.
  assert (HL : (0 <= L)%Z) by (unfold ProofDers.lo; lia).
  assert (HLm : (L + Z.of_nat m <= Z.of_nat (S k))%Z) by (unfold ProofDers.lo, ProofDers.hi in *; lia).
  replace (S k) with (Z.to_nat L + (m + (S k - Z.to_nat L - m)))%nat by lia; rewrite !zsum_app.
  replace (0 + Z.of_nat (Z.to_nat L))%Z with L by lia.
  pose proof (zsum_nonneg 0 (Z.to_nat L) f (fun j _ => Hf j)).
  pose proof (zsum_nonneg (L + Z.of_nat m) (S k - Z.to_nat L - m) f (fun j _ => Hf j)); lra.
Qed.
Lemma c_nonneg j : 0 <= c j.
Proof. pose proof g_pos; apply Rmult_le_pos; [apply bn_nonneg|apply Rlt_le, Rinv_0_lt_compat, pow_lt; lra]. Qed.
Lemma c_sum : zsum 0 (S k) (fun j => c j) = (2 / g) ^ k.
Proof.
  unfold Rdiv; rewrite zsum_scal_r; change (fun i => bn k i) with (bn k); rewrite bn_sum, Rpow_mult_distr, pow_inv; reflexivity.
Qed.
Definition rho : R := / (1 - u) ^ (4 * k).
Lemma rho_bounds : 1 <= rho <= 4 / 3.
Proof.
  unfold rho; split; [rewrite <- Rinv_1 at 1; apply Rinv_le_contravar; apply low_pos|].
  apply low_inv2; apply Rle_trans with (1 := few (4 * k) ltac:(lia)); clear; lra.
Qed.
Lemma v_ok j : (L <= j <= hi (Z.of_nat k))%Z -> finite64 (gA U s x p r k j) /\ Rabs (v j) <= rho * c j /\
  Rabs (v j - a (Z.of_nat k) j) <= (rho - 1) * c j.
Proof.
  intros Hj; destruct (gA_ok k (le_n k) j Hj) as (F & HR & B); split; [exact F|].
  destruct (rel_abs _ _ _ HR) as (R1 & R2 & _); fold rho in R1, R2; rewrite (sg_abs j (a (Z.of_nat k) j)) in R1, R2 by lra.
  pose proof rho_bounds; split; [apply Rle_trans with (1 := R1)|apply Rle_trans with (1 := R2)];
    rewrite Rmult_comm; apply Rmult_le_compat_l; lra.
Qed.
Lemma w_ok j : (L <= j <= hi (Z.of_nat k))%Z -> finite64 (gN U s x (p - k) (r - Z.of_nat k + j)) /\ 0 <= w j <= 2 /\
  0 <= Nx j <= 1.
Proof.
  intros Hj; destruct (gN_ok (p - k) ltac:(lia)) as (H1 & H2).
  assert (Hj' : (0 <= r - Z.of_nat k + j <= Z.of_nat (p - k))%Z) by (unfold ProofDers.lo, ProofDers.hi in Hj; lia).
  destruct (H1 _ Hj') as (F & W0); split; [exact F|].
  assert (B : 0 <= Nx j <= 1) by (split; [apply (N_nonneg U s x HU Hx Hgap)|apply (N_le_1 U s x HU Hx Hgap)]).
  split; [|exact B]; split; [exact W0|].
  pose proof (small_err p Hp (p - k) ltac:(lia)) as SE.
  unfold err in H2.
  pose proof (zsum_term 0 (S (p - k)) (fun r0 => Rabs (value (gN U s x (p - k) r0) - N (p - k)%nat (s - Z.of_nat (p - k) + r0)%Z))
    (r - Z.of_nat k + j) ltac:(lia) (fun j => Rabs_pos _)) as T; cbv beta in T.
  assert (T2 : Rabs (w j - Nx j) <= 1) by lra; apply Rabs_le_inv in T2; lra.
Qed.
Lemma gT_ok j : (L <= j <= hi (Z.of_nat k))%Z -> finite64 (gT U s x p r k j) /\
  Rabs (v j * w j) <= 8 / 3 * c j /\ Rabs (value (gT U s x p r k j) - v j * w j) <= u * Rabs (v j * w j) + eta64.
Proof.
  intros Hj; destruct (v_ok j Hj) as (Fv & Bv & _); destruct (w_ok j Hj) as (Fw & Bw & _).
  pose proof rho_bounds as Br; pose proof (c_nonneg j) as C0; pose proof (cn_bound k j (le_n k)) as C1.
  assert (B : Rabs (v j * w j) <= 8 / 3 * c j).
  { rewrite Rabs_mult, (Rabs_right (w j)) by lra.
    apply Rle_trans with (rho * c j * 2); [apply Rmult_le_compat; try lra; apply Rabs_pos|].
    assert (rho * c j <= 4 / 3 * c j) by (apply Rmult_le_compat_r; lra); lra. }
  destruct (mul64 _ _ Fv Fw) as (F & V).
  { apply rnd_safe with 902%Z; [lia|]; apply Rle_trans with (1 := B).
    replace 902%Z with (1 + 901)%Z by lia; rewrite <- two_bpow, p901; lra. }
  split; [exact F|]; split; [exact B|].
  destruct (rnd_err (v j * w j)) as (e & h & He & Hh & E).
  change (value (gT U s x p r k j)) with (value (PrimFloat.mul (gA U s x p r k j) (gN U s x (p - k) (r - Z.of_nat k + j)))).
  rewrite V, E; replace (v j * w j * (1 + e) + h - v j * w j) with (e * (v j * w j) + h) by ring.
  apply Rle_trans with (1 := Rabs_triang _ _); rewrite Rabs_mult; apply Rplus_le_compat; [|exact Hh].
  apply Rmult_le_compat_r; [apply Rabs_pos|exact He].
Qed.

Lemma gsum_ok m : (m <= n)%nat -> finite64 (gsum U s x p r k m) /\
  Rabs (value (gsum U s x p r k m) - zsum L m (fun j => v j * w j)) <=
    grow (S m) * zsum L m (fun j => Rabs (v j * w j)) + 4 * INR m * eta64.
Proof.
  pose proof ulp64_pos as Hu; pose proof ulp64_small as Hu2; pose proof eta64_pos as He.
  assert (Hn : (n <= S k)%nat) by (unfold ProofDers.lo, ProofDers.hi; lia).
  induction m as [|m IH]; intros Hm.
  - cbn [gsum zsum INR]; split; [exact finite_0|].
    rewrite value_0, Rminus_0_r, Rabs_R0; lra.
  - destruct (IH ltac:(lia)) as (F & E); clear IH.
    assert (Hj : (L <= L + Z.of_nat m <= hi (Z.of_nat k))%Z) by lia.
    destruct (gT_ok _ Hj) as (FT & BT & ET).
    set (j := (L + Z.of_nat m)%Z) in *; set (vw := v j * w j) in *; set (t := gT U s x p r k j) in *.
    cbn [zsum]; fold j; fold vw.
    set (Sm := zsum L m (fun j => v j * w j)) in *; set (A := zsum L m (fun j => Rabs (v j * w j))) in *.
    assert (A0 : 0 <= A) by (apply zsum_nonneg; intros; apply Rabs_pos).
    assert (SA : Rabs Sm <= A) by (apply ProofB64Insert.zsum_Rabs).
    assert (Gm : INR (S (S m)) * u <= / 512) by (apply few; lia).
    assert (GB : grow (S (S m)) <= 11 / 10 * (INR (S (S m)) * u)).
    { rewrite <- Rmult_assoc; apply grow_bound; apply Rle_trans with (INR (p + 2)); [apply le_INR; lia|].
      rewrite plus_INR; cbn [INR]; apply Rle_trans with (2 ^ 40 + 2); [lra|cbn [pow]; lra]. }
    assert (Av : Rabs vw >= 0) by (apply Rle_ge, Rabs_pos).
    assert (G0 : 0 <= grow (S m)) by apply grow_nonneg.
    assert (G1 : grow (S (S m)) = grow (S m) * (1 + u) + u) by apply grow_S.
    assert (Gu : u <= grow (S m)).
    { rewrite grow_S; assert (0 <= grow m * (1 + u)) by (apply Rmult_le_pos; [apply grow_nonneg|lra]); lra. }
    assert (G2 : 2 * u <= grow (S (S m))) by (assert (0 <= grow (S m) * u) by (apply Rmult_le_pos; lra); lra).
    assert (Mu : INR m * u <= / 512).
    { apply Rle_trans with (2 := Gm); apply Rmult_le_compat_r; [lra|apply le_INR; lia]. }
    assert (ADD : finite64 (PrimFloat.add (gsum U s x p r k m) t) /\
      Rabs (value (PrimFloat.add (gsum U s x p r k m) t) - (Sm + vw)) <= grow (S (S m)) * (A + Rabs vw) + 4 * INR (S m) * eta64).
    { set (y := gsum U s x p r k m) in *.
      assert (AB : A + Rabs vw <= 8 / 3 * 2 ^ 900).
      { apply Rle_trans with (zsum L (S m) (fun j => 8 / 3 * c j)).
        - replace (A + Rabs vw) with (zsum L (S m) (fun j => Rabs (v j * w j))) by reflexivity.
          apply zsum_le; intros i Hi; apply gT_ok; lia.
        - rewrite zsum_scal; apply Rmult_le_compat_l; [lra|].
          apply Rle_trans with (1 := sum_part (fun j => c j) (S m) c_nonneg Hm); rewrite c_sum; apply Hbig. }
      assert (EU : eta64 <= u).
      { pose proof eta_ulp as EU; assert (1 <= 2 ^ 100) by (apply pow_R1_Rle; lra).
        apply Rle_trans with (2 := EU); rewrite <- (Rmult_1_r eta64) at 1; apply Rmult_le_compat_l; lra. }
      pose proof (pos_INR m) as M0.
      assert (ME : INR m * eta64 <= / 512) by (apply Rle_trans with (2 := Mu); apply Rmult_le_compat_l; lra).
      assert (GU : 0 <= grow (S m) * u) by (apply Rmult_le_pos; lra).
      assert (GA : grow (S m) * A <= 1 * A) by (apply Rmult_le_compat_r; lra).
      assert (UV : u * Rabs vw <= 1 * Rabs vw) by (apply Rmult_le_compat_r; lra).
      assert (By : Rabs (value y) <= 2 * A + 1).
      { replace (value y) with (Sm + (value y - Sm)) by ring; apply Rle_trans with (1 := Rabs_triang _ _); lra. }
      assert (Bz : Rabs (value t) <= 2 * Rabs vw + 1).
      { replace (value t) with (vw + (value t - vw)) by ring; apply Rle_trans with (1 := Rabs_triang _ _); lra. }
      destruct (add64 y t F FT) as (FA & VA).
      { apply rnd_safe with 904%Z; [lia|]; apply Rle_trans with (1 := Rabs_triang _ _).
        replace 904%Z with (1 + (1 + (1 + 901)))%Z by lia; rewrite <- !two_bpow, p901.
        assert (1 <= 2 ^ 900) by (apply pow_R1_Rle; lra); lra. }
      split; [exact FA|].
      destruct (rnd_add_err (value y) (value t) (value_fmt _) (value_fmt _)) as (e & He' & Ee); rewrite VA, Ee.
      replace ((value y + value t) * (1 + e) - (Sm + vw)) with
        ((1 + e) * ((value y - Sm) + (value t - vw)) + e * (Sm + vw)) by ring.
      apply Rle_trans with (1 := Rabs_triang _ _); rewrite !Rabs_mult.
      assert (E1 : Rabs (1 + e) <= 1 + u) by (apply Rle_trans with (1 := Rabs_triang _ _); rewrite Rabs_R1; lra).
      pose proof (Rabs_triang (value y - Sm) (value t - vw)) as T1; pose proof (Rabs_triang Sm vw) as T2.
      set (Q := grow (S m) * A + 4 * INR m * eta64 + (u * Rabs vw + eta64)).
      assert (P1 : Rabs (1 + e) * Rabs (value y - Sm + (value t - vw)) <= (1 + u) * Q).
      { apply Rmult_le_compat; try apply Rabs_pos; unfold Q; lra. }
      assert (P2 : Rabs e * Rabs (Sm + vw) <= u * (A + Rabs vw)).
      { apply Rmult_le_compat; try apply Rabs_pos; lra. }
      apply Rle_trans with ((1 + u) * Q + u * (A + Rabs vw)); [lra|].
      unfold Q; rewrite G1, (S_INR m).
      assert (P3 : u * (1 + u) * Rabs vw <= grow (S m) * (1 + u) * Rabs vw).
      { apply Rmult_le_compat_r; [lra|]; apply Rmult_le_compat_r; lra. }
      assert (P4 : INR m * u * eta64 <= / 512 * eta64) by (apply Rmult_le_compat_r; lra).
      assert (P5 : u * eta64 <= / 1000 * eta64) by (apply Rmult_le_compat_r; lra).
      replace ((1 + u) * (grow (S m) * A + 4 * INR m * eta64 + (u * Rabs vw + eta64)) + u * (A + Rabs vw))
        with ((grow (S m) * (1 + u) + u) * A + u * (1 + u) * Rabs vw + u * Rabs vw + 4 * (INR m * eta64) + 4 * (INR m * u * eta64) + eta64 + u * eta64) by ring.
      replace ((grow (S m) * (1 + u) + u) * (A + Rabs vw) + 4 * (INR m + 1) * eta64)
        with ((grow (S m) * (1 + u) + u) * A + grow (S m) * (1 + u) * Rabs vw + u * Rabs vw + 4 * (INR m * eta64) + 4 * eta64) by ring.
      lra. }
    cbn [gsum]; fold j; fold t.
    destruct (Nat.eqb_spec m 0) as [E0|E0]; [destruct (Z.leb_spec (Z.of_nat k) r) as [Lr|Lr]|]; cbn [andb].
    + subst m; assert (Ej : j = 0%Z) by (unfold j, ProofDers.lo; lia).
      unfold t in ET, FT; rewrite Ej in ET, FT.
      split; [exact FT|]; unfold Sm, A; cbn [zsum]; rewrite !Rplus_0_l.
      apply Rle_trans with (1 := ET); apply Rplus_le_compat; [apply Rmult_le_compat_r; lra|cbn [INR]; lra].
    + exact ADD.
    + exact ADD.
Qed.

(** Error of the sum, against the error [e] and the size of the functions of degree [p - k]. *)
Notation NN m := (N (p - k)%nat (s - Z.of_nat (p - k) + m)%Z).
Definition en (m : Z) : R := Rabs (value (gN U s x (p - k) m) - NN m).
Definition tau : R := rho * (1 + grow (k + 2)).
Definition hh (m : Z) : R := tau * en m + (tau - 1) * NN m.

Lemma grow_mono m m' : (m <= m')%nat -> grow m <= grow m'.
Proof. intros H; unfold grow; pose proof ulp64_pos; assert ((1 + u) ^ m <= (1 + u) ^ m') by (apply Rle_pow; [lra|exact H]); lra. Qed.
Lemma grow_k : grow (k + 2) <= 11 / 10 * (INR k + 2) * u.
Proof.
  replace (INR k + 2) with (INR (k + 2)) by (rewrite plus_INR; cbn [INR]; ring).
  apply grow_bound; apply Rle_trans with (INR (p + 2)); [apply le_INR; lia|].
  rewrite plus_INR; cbn [INR]; apply Rle_trans with (2 ^ 40 + 2); [lra|cbn [pow]; lra].
Qed.
Lemma ku : INR k * u <= / 2560.
Proof.
  pose proof (few (5 * k) ltac:(lia)) as H; rewrite mult_INR in H; cbn [INR] in H; lra.
Qed.
Lemma k1 : 1 <= INR k.
Proof. change 1 with (INR 1); apply le_INR; exact Hk1. Qed.
Lemma tau_bounds : 1 <= tau <= 1 + 39 / 4 * (INR k * u).
Proof.
  pose proof rho_bounds as HR; pose proof grow_k as GK; pose proof (grow_nonneg (k + 2)) as G0; pose proof ku as KU; pose proof k1 as K1.
  pose proof ulp64_pos as Hu.
  assert (RB : rho <= 1 + 16 / 3 * (INR k * u)).
  { unfold rho; apply Rle_trans with (1 := low_inv (4 * k) ltac:(apply Rle_trans with (1 := few (4 * k) ltac:(lia)); clear; lra)).
    rewrite mult_INR; cbn [INR]; lra. }
  assert (UK : u <= INR k * u) by (rewrite <- (Rmult_1_l u) at 1; apply Rmult_le_compat_r; lra).
  unfold tau; rewrite Rmult_plus_distr_l, Rmult_1_r.
  assert (0 <= rho * grow (k + 2)) by (apply Rmult_le_pos; lra).
  assert (rho * grow (k + 2) <= 4 / 3 * (11 / 10 * (INR k + 2) * u)) by (apply Rmult_le_compat; lra).
  split; [lra|]. replace (4 / 3 * (11 / 10 * (INR k + 2) * u)) with (44 / 30 * (INR k * u) + 88 / 30 * u) in H0 by field; lra.
Qed.
Lemma en_nonneg m : 0 <= en m.
Proof. apply Rabs_pos. Qed.
Lemma NN_nonneg m : 0 <= NN m.
Proof. apply (N_nonneg U s x HU Hx Hgap). Qed.
Lemma hh_nonneg m : 0 <= hh m.
Proof.
  pose proof (en_nonneg m); pose proof (NN_nonneg m); pose proof tau_bounds.
  unfold hh; apply Rplus_le_le_0_compat; apply Rmult_le_pos; lra.
Qed.

Lemma term_err j : (L <= j <= hi (Z.of_nat k))%Z ->
  Rabs (v j * w j - a (Z.of_nat k) j * Nx j) + grow (k + 2) * Rabs (v j * w j) <= c j * hh (r - Z.of_nat k + j).
Proof.
  intros Hj; destruct (v_ok j Hj) as (_ & Bv & Ev); destruct (w_ok j Hj) as (_ & Bw & BN).
  pose proof rho_bounds as HR; pose proof (grow_nonneg (k + 2)) as G0; pose proof (c_nonneg j) as C0.
  unfold hh; set (e := en (r - Z.of_nat k + j)).
  assert (Ee : Rabs (w j - Nx j) = e) by reflexivity.
  assert (E0 : 0 <= e) by apply en_nonneg.
  assert (W : Rabs (w j) <= Nx j + e).
  { replace (w j) with (Nx j + (w j - Nx j)) at 1 by ring; apply Rle_trans with (1 := Rabs_triang _ _); rewrite Ee, (Rabs_right (Nx j)); lra. }
  assert (P1 : Rabs (v j * w j) <= rho * c j * (Nx j + e)).
  { rewrite Rabs_mult; apply Rmult_le_compat; try apply Rabs_pos; assumption. }
  assert (P2 : Rabs (v j * w j - a (Z.of_nat k) j * Nx j) <= rho * c j * e + (rho - 1) * c j * Nx j).
  { replace (v j * w j - a (Z.of_nat k) j * Nx j) with (v j * (w j - Nx j) + (v j - a (Z.of_nat k) j) * Nx j) by ring.
    apply Rle_trans with (1 := Rabs_triang _ _); rewrite !Rabs_mult, Ee, (Rabs_right (Nx j)) by lra.
    apply Rplus_le_compat; apply Rmult_le_compat_r; lra. }
  assert (P3 : grow (k + 2) * Rabs (v j * w j) <= grow (k + 2) * (rho * c j * (Nx j + e))) by (apply Rmult_le_compat_l; assumption).
  unfold tau; apply Rle_trans with (1 := Rplus_le_compat _ _ _ _ P2 P3); right; ring.
Qed.

Definition rawx : R := zsum L n (fun j => a (Z.of_nat k) j * Nx j).
Lemma raw_err : finite64 (gsum U s x p r k n) /\
  Rabs (value (gsum U s x p r k n) - rawx) <= zsum L n (fun j => c j * hh (r - Z.of_nat k + j)) + 4 * (INR k + 1) * eta64.
Proof.
  assert (Hn : (n <= S k)%nat) by (unfold ProofDers.lo, ProofDers.hi; lia).
  destruct (gsum_ok n (le_n n)) as (F & E); split; [exact F|].
  set (y := value (gsum U s x p r k n)) in *; unfold rawx.
  set (S1 := zsum L n (fun j => v j * w j)) in *; set (A := zsum L n (fun j => Rabs (v j * w j))) in *.
  set (S2 := zsum L n (fun j => a (Z.of_nat k) j * Nx j)).
  assert (D : Rabs (S1 - S2) <= zsum L n (fun j => Rabs (v j * w j - a (Z.of_nat k) j * Nx j))).
  { unfold S1, S2; rewrite <- zsum_minus; apply ProofB64Insert.zsum_Rabs. }
  assert (G : grow (S n) * A <= grow (k + 2) * A).
  { apply Rmult_le_compat_r; [apply zsum_nonneg; intros; apply Rabs_pos|apply grow_mono; lia]. }
  assert (T : zsum L n (fun j => Rabs (v j * w j - a (Z.of_nat k) j * Nx j)) + grow (k + 2) * A <=
    zsum L n (fun j => c j * hh (r - Z.of_nat k + j))).
  { unfold A; rewrite <- zsum_scal, <- zsum_plus; apply zsum_le; intros j Hj; apply term_err; lia. }
  assert (N4 : 4 * INR n * eta64 <= 4 * (INR k + 1) * eta64).
  { pose proof eta64_pos; rewrite <- S_INR; apply Rmult_le_compat_r; [lra|]; apply Rmult_le_compat_l; [lra|apply le_INR; exact Hn]. }
  replace (y - S2) with ((y - S1) + (S1 - S2)) by ring; apply Rle_trans with (1 := Rabs_triang _ _); lra.
Qed.
Lemma rawx_abs : Rabs rawx <= zsum L n (fun j => c j * NN (r - Z.of_nat k + j)).
Proof.
  unfold rawx; apply Rle_trans with (1 := ProofB64Insert.zsum_Rabs _ _ _); apply zsum_le; intros j Hj.
  destruct (gA_ok k (le_n k) j ltac:(lia)) as (_ & _ & B).
  rewrite Rabs_mult, (sg_abs j (a (Z.of_nat k) j)) by lra; rewrite (Rabs_right (Nx j)) by (apply Rle_ge, NN_nonneg).
  apply Rmult_le_compat_r; [apply NN_nonneg|lra].
Qed.
Lemma rawx_Dx : Dx (delta s) kU k p (s - zp + r) (value x) = ffact p k * rawx.
Proof.
  rewrite (Dx_coef (delta s) kU (kn_mono _ HU) p (s - zp + r) k Hkmax); f_equal.
  pose proof (acc_all (values U) s (value x) p r Hr (Z.of_nat k) ltac:(lia)) as E; rewrite Nat2Z.id in E.
  transitivity (zsum 0 (S k) (term (values U) s (value x) p r (Z.of_nat k))).
  - apply zsum_ext; intros j Hj; unfold term, ac; rewrite Nat2Z.id; do 3 f_equal; lia.
  - rewrite <- E; unfold rawx; apply zsum_ext; intros j Hj; unfold term; f_equal.
    replace (Z.to_nat (zp - Z.of_nat k)) with (p - k)%nat by lia.
    unfold piece; f_equal; lia.
Qed.
End Function.

(** ** One column: the derivatives of order [kmax] of all functions *)
Section Column.
Notation k := kmax.
Hypothesis Hk1 : (1 <= k)%nat.
Hypothesis Hfact : (zfact p k < 2 ^ 53)%Z.
Notation c j := (bn k j / g ^ k).
Notation NN m := (N (p - k)%nat (s - Z.of_nat (p - k) + m)%Z).
Notation lk r := (lo r (Z.of_nat k)).
Notation nk r := (Z.to_nat (hi p r (Z.of_nat k) + 1 - lo r (Z.of_nat k))).
Notation G := ((2 / g) ^ k).

Lemma double_sum (h : Z -> R) : (forall m, 0 <= h m) ->
  zsum 0 (S p) (fun r => zsum (lk r) (nk r) (fun j => c j * h (r - Z.of_nat k + j)%Z)) <= G * zsum 0 (S (p - k)) h.
Proof.
  intros Hh.
  set (h' := fun m => if ((0 <=? m) && (m <=? Z.of_nat (p - k)))%Z%bool then h m else 0).
  assert (H0 : forall m, 0 <= h' m) by (intros m; unfold h'; destruct (_ && _)%bool; [apply Hh|lra]).
  assert (HI : forall m, (0 <= m <= Z.of_nat (p - k))%Z -> h' m = h m).
  { intros m Hm; unfold h'; destruct (Z.leb_spec 0 m); [|lia]; destruct (Z.leb_spec m (Z.of_nat (p - k))); [reflexivity|lia]. }
  assert (HO : forall m, (m < 0 \/ Z.of_nat (p - k) < m)%Z -> h' m = 0).
  { intros m Hm; unfold h'; destruct (Z.leb_spec 0 m); destruct (Z.leb_spec m (Z.of_nat (p - k))); try reflexivity; lia. }
  apply Rle_trans with (zsum 0 (S p) (fun r => zsum 0 (S k) (fun j => c j * h' (r - Z.of_nat k + j)%Z))).
  - apply zsum_le; intros r Hr.
    rewrite (zsum_ext (lk r) (nk r) _ (fun j => c j * h' (r - Z.of_nat k + j)%Z)).
    + apply (sum_part r ltac:(lia) Hk1 (fun j => c j * h' (r - Z.of_nat k + j)%Z)); [|lia].
      intros j; apply Rmult_le_pos; [apply c_nonneg|apply H0].
    + intros j Hj; rewrite HI; [reflexivity|unfold ProofDers.lo, ProofDers.hi in Hj; lia].
  - rewrite zsum_swap.
    apply Rle_trans with (zsum 0 (S k) (fun j => c j * zsum 0 (S (p - k)) h)); [|rewrite zsum_scal_r, c_sum; apply Rle_refl].
    apply zsum_le; intros j Hj; rewrite zsum_scal; apply Rmult_le_compat_l; [apply c_nonneg|].
    right; transitivity (zsum (0 + (j - Z.of_nat k)) (S p) h').
    + rewrite zsum_shift; apply zsum_ext; intros r Hr; f_equal; lia.
    + rewrite (zsum_window _ (S p) 0 (S (p - k)) h') by (try lia; intros; apply HO; lia).
      apply zsum_ext; intros m Hm; apply HI; lia.
Qed.

Lemma NN_sum : zsum 0 (S (p - k)) (fun m => NN m) = 1.
Proof.
  rewrite <- (piece_unity (values U) s (p - k) (value x) HU Hs).
  pose proof (zsum_shift 0 (s - Z.of_nat (p - k)) (S (p - k)) (fun i => N (p - k)%nat i)) as E.
  rewrite Z.add_0_l in E; rewrite E; apply zsum_ext; intros i Hi; f_equal; lia.
Qed.
Lemma hh_sum : zsum 0 (S (p - k)) hh <= tau * (8 * INR (p - k) * u) + (tau - 1).
Proof.
  unfold hh; rewrite zsum_plus, !zsum_scal, NN_sum, Rmult_1_r.
  apply Rplus_le_compat_r, Rmult_le_compat_l; [pose proof (tau_bounds Hk1); lra|].
  apply (gN_ok (p - k) ltac:(lia)).
Qed.

Notation z := (IZR (zfact p k)).
Notation raw r := (gsum U s x p r k (nk r)).
Notation dd r := (gder U s x p r (Z.of_nat k)).
Notation pk := (INR p * u).

Lemma zf_bounds : 1 <= z < 2 ^ 53.
Proof.
  split.
  - apply IZR_le; clear Hfact Hbig; assert (H : forall m, (m <= k)%nat -> (1 <= zfact p m)%Z); [|apply H; lia].
    induction m as [|m IH]; intros Hm; cbn [zfact]; [lia|]; specialize (IH ltac:(lia)); nia.
  - rewrite (pow_IZR 2 53); apply IZR_lt; exact Hfact.
Qed.
Lemma eta_small : (INR p + 1) * (4 * (INR k + 1)) * eta64 <= / 1024 * u.
Proof.
  pose proof eta_ulp as EU; pose proof eta64_pos; pose proof (pos_INR p); pose proof (pos_INR k).
  assert (INR k <= 2 ^ 40) by (apply Rle_trans with (2 := Hp); apply le_INR; exact Hkmax).
  assert (A : (INR p + 1) * (4 * (INR k + 1)) <= 2 ^ 90).
  { apply Rle_trans with (2 ^ 41 * 2 ^ 43); [apply Rmult_le_compat|]; cbn [pow] in *; lra. }
  apply Rle_trans with (2 ^ 90 * eta64); [apply Rmult_le_compat_r; lra|].
  replace (2 ^ 100) with (2 ^ 90 * 1024) in EU by (change 100%nat with (90 + 10)%nat; rewrite pow_add; f_equal; cbn [pow]; lra); lra.
Qed.
Lemma G_ge_1 : 1 <= G.
Proof. apply pow_R1_Rle; pose proof g2; lra. Qed.

Lemma raw_sum : zsum 0 (S p) (fun r => Rabs (value (raw r) - rawx r)) <=
  G * (tau * (8 * INR (p - k) * u) + (tau - 1)) + / 1024 * u.
Proof.
  pose proof eta_small as ES; pose proof eta64_pos as E0.
  apply Rle_trans with (zsum 0 (S p) (fun r => zsum (lk r) (nk r) (fun j => c j * hh (r - Z.of_nat k + j)) + 4 * (INR k + 1) * eta64)).
  - apply zsum_le; intros r Hr; apply (raw_err r ltac:(lia) Hk1).
  - rewrite zsum_plus; apply Rplus_le_compat.
    + apply Rle_trans with (1 := double_sum hh (hh_nonneg Hk1)).
      apply Rmult_le_compat_l; [pose proof G_ge_1; lra|apply hh_sum].
    + rewrite zsum_const, S_INR; lra.
Qed.
Lemma rawx_sum : zsum 0 (S p) (fun r => Rabs (rawx r)) <= G.
Proof.
  rewrite <- (Rmult_1_r G), <- NN_sum.
  apply Rle_trans with (2 := double_sum (fun m => NN m) NN_nonneg).
  apply zsum_le; intros r Hr; apply rawx_abs; [lia|exact Hk1].
Qed.
Lemma tau_small : tau * (8 * INR (p - k) * u) + (tau - 1) <= 39 / 4 * pk.
Proof.
  pose proof (tau_bounds Hk1) as HT; pose proof (ku Hk1) as KU; pose proof ulp64_pos; pose proof (pos_INR (p - k)).
  assert (EP : INR p = INR (p - k) + INR k) by (rewrite <- plus_INR; f_equal; lia).
  assert (0 <= INR (p - k) * u) by (apply Rmult_le_pos; lra).
  assert (tau * (8 * INR (p - k) * u) <= 39 / 4 * (INR (p - k) * u)).
  { replace (8 * INR (p - k) * u) with (8 * (INR (p - k) * u)) by ring; rewrite <- Rmult_assoc; apply Rmult_le_compat_r; lra. }
  rewrite EP; lra.
Qed.
Lemma pu : u <= pk <= / 512.
Proof.
  pose proof ulp64_pos; pose proof ulp64_tiny as Ht.
  assert (1 <= INR p) by (change 1 with (INR 1); apply le_INR; lia).
  split; [rewrite <- (Rmult_1_l u) at 1; apply Rmult_le_compat_r; lra|].
  apply Rle_trans with (2 ^ 40 * u); [apply Rmult_le_compat_r; lra|].
  replace (2 ^ 53) with (2 ^ 40 * 8192) in Ht by (cbn [pow]; ring); lra.
Qed.
Lemma raw_total : zsum 0 (S p) (fun r => Rabs (value (raw r) - rawx r)) <= 99 / 10 * pk * G.
Proof.
  pose proof raw_sum as H; pose proof tau_small as T; pose proof G_ge_1 as G1; pose proof pu as PU; pose proof ulp64_pos.
  apply Rle_trans with (1 := H).
  assert (G * (tau * (8 * INR (p - k) * u) + (tau - 1)) <= G * (39 / 4 * pk)) by (apply Rmult_le_compat_l; lra).
  assert (pk * 1 <= pk * G) by (apply Rmult_le_compat_l; lra); lra.
Qed.

Lemma der_ok r : (0 <= r <= zp)%Z -> finite64 (dd r) /\
  Rabs (value (dd r) - z * rawx r) <= z * ((1 + u) * Rabs (value (raw r) - rawx r) + u * Rabs (rawx r)) + eta64.
Proof.
  intros Hr; destruct zf_bounds as (Z1 & Z2); pose proof G_ge_1 as G1; pose proof pu as PU.
  destruct (raw_err r Hr Hk1) as (F & _).
  destruct (ofZ64 (zfact p k)) as (FZ & VZ).
  { apply Z.abs_lt; split; [|exact Hfact]. apply lt_IZR; apply Rlt_le_trans with 0; [apply IZR_lt; lia|lra]. }
  assert (E : dd r = PrimFloat.mul (raw r) (ofZ (zfact p k) : Binary64)).
  { unfold gder; destruct (Z.eqb_spec (Z.of_nat k) 0); [lia|]; unfold graw.
    destruct (Z.leb_spec (Z.of_nat k) zp); [|lia]; rewrite Nat2Z.id; reflexivity. }
  assert (B1 : Rabs (value (raw r) - rawx r) <= 99 / 10 * pk * G).
  { apply Rle_trans with (2 := raw_total).
    apply (zsum_term 0 (S p) (fun r => Rabs (value (raw r) - rawx r)) r); [lia|intros; apply Rabs_pos]. }
  assert (B2 : Rabs (rawx r) <= G).
  { apply Rle_trans with (2 := rawx_sum).
    apply (zsum_term 0 (S p) (fun r => Rabs (rawx r)) r); [lia|intros; apply Rabs_pos]. }
  assert (B : Rabs (value (raw r)) <= 2 * 2 ^ 900).
  { replace (value (raw r)) with (rawx r + (value (raw r) - rawx r)) by ring; apply Rle_trans with (1 := Rabs_triang _ _).
    assert (99 / 10 * pk * G <= 1 * G) by (apply Rmult_le_compat_r; lra); clear - B1 B2 H Hbig; lra. }
  destruct (mul64 (raw r) (ofZ (zfact p k) : Binary64) F FZ) as (FM & VM).
  { apply rnd_safe with (901 + 53)%Z; [lia|]; rewrite VZ, Rabs_mult, bpow_plus, p901.
    apply Rmult_le_compat; try apply Rabs_pos; [exact B|rewrite Rabs_right by lra].
    replace (bpow radix2 53) with (2 ^ 53) by (rewrite bpow_powerRZ; reflexivity); lra. }
  rewrite E; split; [exact FM|]; rewrite VM, VZ.
  destruct (rnd_err (value (raw r) * z)) as (e & h & He & Hh & Ee); rewrite Ee.
  set (y := value (raw r)) in *; set (X := rawx r) in *.
  replace (y * z * (1 + e) + h - z * X) with (z * ((1 + e) * (y - X) + e * X) + h) by ring.
  apply Rle_trans with (1 := Rabs_triang _ _); apply Rplus_le_compat; [|exact Hh].
  rewrite Rabs_mult, (Rabs_right z) by lra; apply Rmult_le_compat_l; [lra|].
  apply Rle_trans with (1 := Rabs_triang _ _); rewrite !Rabs_mult.
  apply Rplus_le_compat; apply Rmult_le_compat_r; try apply Rabs_pos; [|exact He].
  apply Rle_trans with (1 := Rabs_triang _ _); rewrite Rabs_R1; lra.
Qed.

Lemma column_ok : (forall r, (0 <= r <= zp)%Z -> finite64 (dd r)) /\
  zsum 0 (S p) (fun r => Rabs (value (dd r) - Dx (delta s) kU k p (s - zp + r) (value x))) <= 12 * INR p * u * (z * G).
Proof.
  split; [intros r Hr; apply der_ok; exact Hr|].
  destruct zf_bounds as (Z1 & Z2); pose proof G_ge_1 as G1; pose proof pu as PU; pose proof ulp64_pos as Hu; pose proof ulp64_small as Hu2.
  pose proof eta_small as ES; pose proof eta64_pos as E0.
  apply Rle_trans with (zsum 0 (S p) (fun r => z * ((1 + u) * Rabs (value (raw r) - rawx r) + u * Rabs (rawx r)) + eta64)).
  - apply zsum_le; intros r Hr; rewrite (rawx_Dx r ltac:(lia) Hk1), <- (zfact_ffact p k Hkmax); apply der_ok; lia.
  - rewrite zsum_plus, zsum_const, zsum_scal, zsum_plus, !zsum_scal, S_INR.
    pose proof raw_total as RT; pose proof rawx_sum as RX.
    set (A := zsum 0 (S p) (fun r => Rabs (value (raw r) - rawx r))) in *; set (B := zsum 0 (S p) (fun r => Rabs (rawx r))) in *.
    assert (G0 : 0 <= G) by lra.
    assert (P0 : 0 <= pk * G) by (apply Rmult_le_pos; lra).
    assert (PG : pk <= pk * G) by (rewrite <- (Rmult_1_r pk) at 1; apply Rmult_le_compat_l; lra).
    assert (A1 : (1 + u) * A <= (1 + / 1000) * (99 / 10 * pk * G)).
    { apply Rmult_le_compat; try lra; apply zsum_nonneg; intros; apply Rabs_pos. }
    assert (B1 : u * B <= pk * G).
    { apply Rmult_le_compat; try lra; apply zsum_nonneg; intros; apply Rabs_pos. }
    assert (E1 : (INR p + 1) * eta64 <= pk * G).
    { apply Rle_trans with ((INR p + 1) * (4 * (INR k + 1)) * eta64); [|lra].
      pose proof (pos_INR p); pose proof (pos_INR k); apply Rmult_le_compat_r; [lra|].
      rewrite <- (Rmult_1_r (INR p + 1)) at 1; apply Rmult_le_compat_l; lra. }
    assert (T : z * ((1 + u) * A + u * B) <= z * (11 * (pk * G))) by (apply Rmult_le_compat_l; lra).
    assert (T2 : 1 * (pk * G) <= z * (pk * G)) by (apply Rmult_le_compat_r; lra).
    replace (12 * INR p * u * (z * G)) with (z * (11 * (pk * G)) + z * (pk * G)) by ring; lra.
Qed.
Lemma dx_sum : zsum 0 (S p) (fun r => Rabs (Dx (delta s) kU k p (s - zp + r) (value x))) <= z * G.
Proof.
  destruct zf_bounds as (Z1 & _).
  apply Rle_trans with (z * zsum 0 (S p) (fun r => Rabs (rawx r))); [|apply Rmult_le_compat_l; [lra|apply rawx_sum]].
  rewrite <- zsum_scal; apply zsum_le; intros r Hr.
  rewrite (rawx_Dx r ltac:(lia) Hk1), <- (zfact_ffact p k Hkmax), Rabs_mult, (Rabs_right z) by lra; lra.
Qed.
Lemma size_ge_1 : 1 <= z * G.
Proof.
  destruct zf_bounds as (Z1 & _); pose proof G_ge_1; apply Rle_trans with (1 * 1); [lra|apply Rmult_le_compat; lra].
Qed.
End Column.
End Order.
End Ders64.
