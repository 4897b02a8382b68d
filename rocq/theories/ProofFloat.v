(** Parsing and shortest formatting of doubles: the numbers (model: ModelFloat.v). *)
From Coq Require Import Reals Lra Lia ZArith List Floats.
From Flocq Require Import Core.Core IEEE754.BinarySingleNaN IEEE754.PrimFloat.
From Verif Require Import Py Num ModelIO ModelFloat SpecB64 SpecFloatText ProofB64.
Open Scope R_scope.

Lemma pow10_pos k : 0 < powerRZ 10 k. Proof. apply powerRZ_lt; lra. Qed.
Lemma pow10_IZR k : (0 <= k)%Z -> powerRZ 10 k = IZR (10 ^ k).
Proof. intros H; rewrite <- (Z2Nat.id k H), <- pow_powerRZ; apply pow_IZR. Qed.
Lemma pow10_neg k : (k < 0)%Z -> powerRZ 10 k = / IZR (10 ^ (- k)).
Proof. intros H; rewrite <- pow10_IZR by lia; rewrite <- powerRZ_neg' by lra; f_equal; lia. Qed.
Definition fraction (m k : Z) : Z * Z := if (0 <=? k)%Z then (m * 10 ^ k, 1)%Z else (m, 10 ^ (- k))%Z.
Lemma fraction_spec m k : (0 < m)%Z -> let (a, b) := fraction m k in (0 < a)%Z /\ (0 < b)%Z /\ IZR m * powerRZ 10 k = IZR a / IZR b.
Proof.
  intros H; unfold fraction; destruct (Z.leb_spec 0 k) as [K|K].
  - assert (0 < 10 ^ k)%Z by (apply Z.pow_pos_nonneg; lia); (split; [apply Z.mul_pos_pos; lia|split; [lia|]]); rewrite mult_IZR, pow10_IZR by exact K; field.
  - assert (0 < 10 ^ (- k))%Z by (apply Z.pow_pos_nonneg; lia); (split; [lia|split; [lia|]]); rewrite pow10_neg by exact K; reflexivity.
Qed.
Lemma prim_of_SF (z : SpecFloat.spec_float) : SpecFloat.valid_binary prec emax z = true -> FloatOps.Prim2SF (FloatOps.SF2Prim z) = z.
Proof. intros H; apply FloatAxioms.Prim2SF_SF2Prim; exact H. Qed.
Lemma value_SF x z : FloatOps.Prim2SF x = z -> value x = SF2R radix2 z.
Proof.
  intros <-; rewrite value_B, <- B2SF_Prim2B; symmetry; apply SF2R_B2SF.
Qed.
Lemma nearest_spec (s : bool) m k : (0 < m)%Z ->
  if Rlt_bool (Rabs (rnd (decimal s m k))) (bpow radix2 1024) then
    finite64 (nearest s m k) /\ value (nearest s m k) = rnd (decimal s m k) /\ (FloatOps.Prim2SF (nearest s m k) = S754_zero s \/ exists p e, FloatOps.Prim2SF (nearest s m k) = S754_finite s p e)
  else nearest s m k = if s then neg_infinity else infinity.
Proof.
  intros Hm; unfold nearest; destruct m as [|m|m]; try lia.
  change (if (0 <=? k)%Z then (Z.pos m * 10 ^ k, 1)%Z else (Z.pos m, 10 ^ (- k))%Z) with (fraction (Z.pos m) k).
  pose proof (fraction_spec (Z.pos m) k Hm) as FS; destruct (fraction (Z.pos m) k) as [a b]; destruct FS as (Ha & Hb & HV).
  destruct a as [|a|a]; try lia; destruct b as [|b|b]; try lia.
  pose proof (Bdiv_correct_aux prec emax Hprec Hmax mode_NE s a 0 false b 0) as D; cbv zeta in D.
  destruct (SFdiv_core_binary prec emax (Z.pos a) 0 (Z.pos b) 0) as [[q e] l].
  rewrite <- binary_round_aux_equiv, Bool.xorb_false_r in D; set (z := SpecFloat.binary_round_aux prec emax s q e l) in *.
  assert (EV : F2R (Float radix2 (cond_Zopp s (Z.pos a)) 0) / F2R (Float radix2 (cond_Zopp false (Z.pos b)) 0) = decimal s (Z.pos m) k).
  { unfold decimal, F2R; cbn [Fnum Fexp bpow cond_Zopp]; rewrite !Rmult_1_r; destruct s; cbn [cond_Zopp].
    - change (Z.neg a) with (- Z.pos a)%Z; rewrite opp_IZR; unfold Rdiv in *; rewrite <- Ropp_mult_distr_l, <- HV; ring.
    - symmetry; exact HV. }
  rewrite EV, fexp_FLT in D; cbn [round_mode] in D; change (bpow radix2 emax) with (bpow radix2 1024) in D.
  destruct D as [Vz D]; pose proof (prim_of_SF z Vz) as PZ; destruct (Rlt_bool _ _).
  - destruct D as (D1 & D2 & D3); rewrite (value_SF _ _ PZ), D1; unfold finite64; rewrite PZ.
    destruct z as [s0|s0| |s0 p0 e0]; try discriminate D2; cbn in D3; subst s0; (split; [exact I|split; [reflexivity|]]); [left; reflexivity|right; eexists; eexists; reflexivity].
  - rewrite D; destruct s; reflexivity.
Qed.
Lemma near_rnd c v : fmt v -> 0 < v -> Rabs (c - v) * (2 * 10 ^ 16) <= v -> rnd c = v.
Proof.
  intros Fv Pv H; assert (HA := Rabs_pos (c - v)); assert (D1 : c - v <= Rabs (c - v)) by apply Rle_abs.
  assert (D2 : - (c - v) <= Rabs (c - v)) by (rewrite <- Rabs_Ropp; apply Rle_abs).
  pose proof (ulp_FLT_gt radix2 (-1074) 53) as UG.
  assert (B53 : bpow radix2 (-53) = / 9007199254740992) by (cbn; reflexivity || (cbn; field)).
  apply Rle_antisym.
  - apply round_N_le_midp; [exact _|exact Fv|].
    rewrite succ_eq_pos by lra; pose proof (UG v) as U; rewrite Rabs_pos_eq in U by lra; change (bpow radix2 (- (53))) with (bpow radix2 (-53)) in U; rewrite B53 in U. lra.
  - apply round_N_ge_midp; [exact _|exact Fv|].
    pose proof (pred_plus_ulp radix2 (FLT_exp (-1074) 53) v Pv Fv) as PP; pose proof (UG (pred radix2 (FLT_exp (-1074) 53) v)) as U.
    pose proof (pred_ge_0 radix2 (FLT_exp (-1074) 53) v Pv Fv) as P0; rewrite Rabs_pos_eq in U by exact P0; change (bpow radix2 (- (53))) with (bpow radix2 (-53)) in U; rewrite B53 in U.
    lra.
Qed.
Lemma value_nonzero s p e x : FloatOps.Prim2SF x = S754_finite s p e -> value x = (if s then - IZR (Z.pos p) else IZR (Z.pos p)) * powerRZ 2 e /\ value x <> 0 /\ finite64 x.
Proof.
  intros E; unfold finite64, value; rewrite E; split; [reflexivity|split; [|exact I]].
  pose proof (powerRZ_lt 2 e ltac:(lra)); assert (0 < IZR (Z.pos p)) by (apply IZR_lt; lia).
  destruct s; apply Rmult_integral_contrapositive; lra.
Qed.
Lemma value_inj x y : finite64 x -> finite64 y -> value x = value y -> value x <> 0 -> x = y.
Proof.
  intros Fx Fy E N; apply Prim2B_inj; apply B2R_inj.
  - rewrite value_B in N; rewrite finite_B in Fx; destruct (Prim2B x); cbn in *; congruence.
  - rewrite E, value_B in N; rewrite finite_B in Fy; destruct (Prim2B y); cbn in *; congruence.
  - rewrite <- !value_B; exact E.
Qed.
Lemma eqb_value a x : finite64 x -> value x <> 0 -> PrimFloat.eqb a x = true <-> a = x.
Proof.
  intros Fx N; split; intros H.
  - assert (Fa : finite64 a).
    { rewrite FloatAxioms.eqb_spec in H; unfold finite64 in *; destruct (FloatOps.Prim2SF a) as [|[]| |], (FloatOps.Prim2SF x) as [|[]| |[]]; cbn in *; try exact I; try discriminate; contradiction. }
    rewrite eqb64 in H by assumption; symmetry; apply value_inj; try assumption.
    destruct (Req_bool_spec (value a) (value x)); [symmetry; assumption|discriminate].
  - subst a; rewrite eqb64 by assumption; apply Req_bool_true; reflexivity.
Qed.
Lemma nearest_same s m k m' k' : (0 < m)%Z -> (0 < m')%Z -> decimal s m k = decimal s m' k' -> nearest s m k = nearest s m' k'.
Proof.
  intros H H' E; pose proof (nearest_spec s m k H) as A; pose proof (nearest_spec s m' k' H') as B; rewrite <- E in B.
  destruct (Rlt_bool _ _); [|congruence].
  destruct A as (Fa & Va & Sa), B as (Fb & Vb & Sb); destruct Sa as [Sa|(p & e & Sa)].
  - destruct Sb as [Sb|(p & e & Sb)].
    + apply FloatAxioms.Prim2SF_inj; congruence.
    + destruct (value_nonzero _ _ _ _ Sb) as (_ & N & _); exfalso; apply N; rewrite Vb, <- Va; unfold value; rewrite Sa; reflexivity.
  - destruct (value_nonzero _ _ _ _ Sa) as (_ & N & _); apply value_inj; try assumption; congruence.
Qed.
Lemma nearest_hit s p e x c k : FloatOps.Prim2SF x = S754_finite s p e -> (0 < c)%Z -> Rabs (IZR c * powerRZ 10 k - Rabs (value x)) * (2 * 10 ^ 16) <= Rabs (value x) -> nearest s c k = x.
Proof.
  intros E Hc H; destruct (value_nonzero _ _ _ _ E) as (V & N & Fx).
  pose proof (Rabs_pos_lt _ N) as P; assert (FA : fmt (Rabs (value x))) by (apply generic_format_abs, value_fmt).
  pose proof (near_rnd _ _ FA P H) as R.
  assert (Sg : value x = if s then - Rabs (value x) else Rabs (value x)).
  { pose proof (powerRZ_lt 2 e ltac:(lra)); assert (0 < IZR (Z.pos p)) by (apply IZR_lt; lia).
    destruct s; rewrite V; [rewrite Rabs_left|rewrite Rabs_right]; try ring.
    - rewrite <- (Rmult_0_l (powerRZ 2 e)); apply Rmult_lt_compat_r; lra.
    - apply Rle_ge, Rmult_le_pos; lra. }
  assert (RD : rnd (decimal s c k) = value x).
  { rewrite Sg; unfold decimal; destruct s; [|exact R]. rewrite <- Ropp_mult_distr_l, round_NE_opp, R; reflexivity. }
  pose proof (nearest_spec s c k Hc) as A; rewrite RD in A.
  rewrite Rlt_bool_true in A; [destruct A as (F & W & _); symmetry; apply value_inj; congruence|].
  rewrite value_B; apply abs_B2R_lt_emax.
Qed.
Lemma find_first (f : Z -> bool) a : forall n st, (exists i, (st <= i < st + n)%nat /\ f (a + Z.of_nat i)%Z = true) ->
  exists i, (st <= i < st + n)%nat /\ find f (map (fun k => a + Z.of_nat k)%Z (seq st n)) = Some (a + Z.of_nat i)%Z /\ f (a + Z.of_nat i)%Z = true /\ forall l, (st <= l < i)%nat -> f (a + Z.of_nat l)%Z = false.
Proof.
  induction n as [|n IH]; intros st (i & Hi & Fi); [lia|]; cbn [seq map find].
  destruct (f (a + Z.of_nat st)%Z) eqn:E.
  - exists st; split; [lia|split; [reflexivity|split; [exact E|intros l Hl; lia]]].
  - assert (i <> st) by congruence; destruct (IH (S st)) as (i' & H1 & H2 & H3 & H4); [exists i; split; [lia|exact Fi]|].
    exists i'; split; [lia|split; [exact H2|split; [exact H3|]]]; intros l Hl; destruct (Nat.eq_dec l st) as [->|]; [exact E|apply H4; lia].
Qed.
Lemma below10_spec num den j : (0 < den)%Z -> below10 num den j = true <-> IZR num / IZR den < powerRZ 10 j.
Proof.
  intros Hd; assert (Pd : 0 < IZR den) by (apply IZR_lt; exact Hd); unfold below10; destruct (Z.leb_spec 0 j) as [J|J].
  - rewrite pow10_IZR, Z.ltb_lt by exact J; split; intros H.
    + apply Rmult_lt_reg_r with (IZR den); [exact Pd|]; unfold Rdiv; rewrite Rmult_assoc, Rinv_l, Rmult_1_r by lra; rewrite <- mult_IZR; apply IZR_lt; lia.
    + apply Rmult_lt_compat_r with (r := IZR den) in H; [|exact Pd]; unfold Rdiv in H; rewrite Rmult_assoc, Rinv_l, Rmult_1_r in H by lra; rewrite <- mult_IZR in H; apply lt_IZR in H; lia.
  - assert (HP : (0 < 10 ^ (- j))%Z) by (apply Z.pow_pos_nonneg; lia); assert (PP : 0 < IZR (10 ^ (- j))) by (apply IZR_lt; exact HP).
    rewrite pow10_neg, Z.ltb_lt by exact J; split; intros H.
    + apply Rmult_lt_reg_r with (IZR den * IZR (10 ^ (- j))); [apply Rmult_lt_0_compat; assumption|].
      replace (IZR num / IZR den * (IZR den * IZR (10 ^ (- j)))) with (IZR num * IZR (10 ^ (- j))) by (field; lra).
      replace (/ IZR (10 ^ (- j)) * (IZR den * IZR (10 ^ (- j)))) with (IZR den) by (field; lra); rewrite <- mult_IZR; apply IZR_lt; exact H.
    + apply Rmult_lt_compat_r with (r := IZR den * IZR (10 ^ (- j))) in H; [|apply Rmult_lt_0_compat; assumption].
      replace (IZR num / IZR den * (IZR den * IZR (10 ^ (- j)))) with (IZR num * IZR (10 ^ (- j))) in H by (field; lra).
      replace (/ IZR (10 ^ (- j)) * (IZR den * IZR (10 ^ (- j)))) with (IZR den) in H by (field; lra); rewrite <- mult_IZR in H; apply lt_IZR in H; exact H.
Qed.
Lemma point_position_spec num den : (0 < den)%Z -> powerRZ 10 (-324) <= IZR num / IZR den < powerRZ 10 309 ->
  let j := point_position num den in (-323 <= j <= 309)%Z /\ powerRZ 10 (j - 1) <= IZR num / IZR den < powerRZ 10 j.
Proof.
  intros Hd (L & Up); cbv zeta; unfold point_position, zrange.
  destruct (find_first (below10 num den) (-323) (Z.to_nat (310 - -323)) 0) as (i & Hi & E & T & F).
  - exists 632%nat; split; [lia|]; apply below10_spec; [exact Hd|]; change (-323 + Z.of_nat 632)%Z with 309%Z; exact Up.
  - rewrite E; change (Z.to_nat (310 - -323)) with 633%nat in Hi; split; [lia|]; split; [|apply below10_spec; assumption].
    destruct i as [|i]; [exact L|].
    apply Rnot_lt_le; intros C; assert (B : below10 num den (-323 + Z.of_nat i) = true).
    { apply below10_spec; [exact Hd|]; replace (-323 + Z.of_nat i)%Z with (-323 + Z.of_nat (S i) - 1)%Z by lia; exact C. }
    rewrite (F i ltac:(lia)) in B; discriminate.
Qed.
(** the numerator and denominator of a finite double *)
Definition parts (m : positive) (e : Z) : Z * Z := if (0 <=? e)%Z then (Z.pos m * 2 ^ e, 1)%Z else (Z.pos m, 2 ^ (- e))%Z.
Lemma pow2_IZR k : (0 <= k)%Z -> powerRZ 2 k = IZR (2 ^ k).
Proof. intros H; rewrite <- (Z2Nat.id k H), <- pow_powerRZ; apply pow_IZR. Qed.
Lemma parts_spec s m e x : FloatOps.Prim2SF x = S754_finite s m e -> let (num, den) := parts m e in (0 < num)%Z /\ (0 < den)%Z /\ Rabs (value x) = IZR num / IZR den.
Proof.
  intros E; destruct (value_nonzero _ _ _ _ E) as (V & _); rewrite V, Rabs_mult, (Rabs_pos_eq (powerRZ 2 e)) by (left; apply powerRZ_lt; lra).
  assert (P : 0 < IZR (Z.pos m)) by (apply IZR_lt; lia).
  replace (Rabs (if s then - IZR (Z.pos m) else IZR (Z.pos m))) with (IZR (Z.pos m)) by (destruct s; [rewrite Rabs_Ropp|]; rewrite Rabs_pos_eq; lra).
  unfold parts; destruct (Z.leb_spec 0 e) as [K|K].
  - assert (0 < 2 ^ e)%Z by (apply Z.pow_pos_nonneg; lia); split; [apply Z.mul_pos_pos; lia|split; [lia|]]; rewrite mult_IZR, pow2_IZR by exact K; field.
  - assert (0 < 2 ^ (- e))%Z by (apply Z.pow_pos_nonneg; lia); split; [lia|split; [lia|]].
    rewrite <- pow2_IZR by lia; replace e with (- (- e))%Z at 1 by lia; rewrite powerRZ_neg' by lra; reflexivity.
Qed.
Lemma value_range s m e x : FloatOps.Prim2SF x = S754_finite s m e -> powerRZ 10 (-324) <= Rabs (value x) < powerRZ 10 309.
Proof.
  intros E; destruct (value_nonzero _ _ _ _ E) as (_ & N & Fx); split.
  - assert (S : is_finite_strict (Prim2B x) = true) by (rewrite value_B in N; rewrite finite_B in Fx; destruct (Prim2B x); cbn in *; congruence).
    pose proof (abs_B2R_ge_emin prec emax _ S) as G; rewrite <- value_B in G.
    apply Rle_trans with (2 := G); change (SpecFloat.emin prec emax) with (-1074)%Z; rewrite bpow_powerRZ.
    rewrite (pow10_neg (-324)) by lia; change (IZR radix2) with 2; replace (-1074)%Z with (- (1074))%Z by lia; rewrite powerRZ_neg' by lra; rewrite pow2_IZR by lia.
    apply Rinv_le_contravar; [apply IZR_lt; reflexivity|apply IZR_le]; apply Z.leb_le; vm_compute; reflexivity.
  - rewrite value_B; apply Rlt_le_trans with (1 := abs_B2R_lt_emax _ _ (Prim2B x)).
    rewrite bpow_powerRZ; change (IZR radix2) with 2; rewrite pow2_IZR, pow10_IZR by (vm_compute; discriminate); apply IZR_le, Z.leb_le; vm_compute; reflexivity.
Qed.

Definition scaled (num den k : Z) : Z * Z := if (0 <=? k)%Z then (num, den * 10 ^ k)%Z else (num * 10 ^ (- k), den)%Z.
Lemma scaled_spec num den k : (0 < num)%Z -> (0 < den)%Z -> let (a, b) := scaled num den k in (0 < a)%Z /\ (0 < b)%Z /\ IZR a / IZR b * powerRZ 10 k = IZR num / IZR den.
Proof.
  intros Hn Hd; assert (0 < IZR den) by (apply IZR_lt; exact Hd); unfold scaled; destruct (Z.leb_spec 0 k) as [K|K].
  - assert (HP : (0 < 10 ^ k)%Z) by (apply Z.pow_pos_nonneg; lia); assert (0 < IZR (10 ^ k)) by (apply IZR_lt; exact HP).
    split; [lia|split; [apply Z.mul_pos_pos; lia|]]; rewrite mult_IZR, pow10_IZR by exact K; field; lra.
  - assert (HP : (0 < 10 ^ (- k))%Z) by (apply Z.pow_pos_nonneg; lia); assert (0 < IZR (10 ^ (- k))) by (apply IZR_lt; exact HP).
    split; [apply Z.mul_pos_pos; lia|split; [lia|]]; rewrite mult_IZR, pow10_neg by exact K; field; lra.
Qed.
Lemma floor_frac a b : (0 < b)%Z -> IZR (a / b) <= IZR a / IZR b < IZR (a / b) + 1 /\ IZR a / IZR b = IZR (a / b) + IZR (a mod b) / IZR b.
Proof.
  intros Hb; assert (P : 0 < IZR b) by (apply IZR_lt; exact Hb); pose proof (Z.div_mod a b ltac:(lia)) as DM; pose proof (Z.mod_pos_bound a b Hb) as B.
  assert (E : IZR a / IZR b = IZR (a / b) + IZR (a mod b) / IZR b) by (rewrite DM at 1; rewrite plus_IZR, mult_IZR; field; lra).
  assert (B0 : 0 <= IZR (a mod b)) by (apply IZR_le; lia); assert (B1 : IZR (a mod b) < IZR b) by (apply IZR_lt; lia).
  assert (Q : 0 <= IZR (a mod b) / IZR b < 1).
  { split; [apply Rmult_le_pos; [exact B0|left; apply Rinv_0_lt_compat; exact P]|].
    apply Rmult_lt_reg_r with (IZR b); [exact P|]; unfold Rdiv; rewrite Rmult_assoc, Rinv_l by lra; lra. }
  rewrite E; lra.
Qed.
Lemma pow10_le a b : (a <= b)%Z -> powerRZ 10 a <= powerRZ 10 b.
Proof.
  intros H; replace b with (a + (b - a))%Z by lia; rewrite powerRZ_add by lra; rewrite (pow10_IZR (b - a)) by lia.
  pose proof (pow10_pos a); assert (1 <= IZR (10 ^ (b - a))) by (apply IZR_le; pose proof (Z.pow_pos_nonneg 10 (b - a) ltac:(lia) ltac:(lia)); lia).
  rewrite <- (Rmult_1_r (powerRZ 10 a)) at 1; apply Rmult_le_compat_l; lra.
Qed.
Section Level.
Variables (x : PrimFloat.float) (s : bool) (p : positive) (e : Z).
Hypothesis HX : FloatOps.Prim2SF x = S754_finite s p e.
Let V := Rabs (value x).
Lemma value_signed : value x = if s then - V else V.
Proof.
  destruct (value_nonzero _ _ _ _ HX) as (W & _); unfold V; rewrite W.
  pose proof (powerRZ_lt 2 e ltac:(lra)); assert (0 < IZR (Z.pos p)) by (apply IZR_lt; lia).
  destruct s; [rewrite Rabs_left|rewrite Rabs_right]; try ring.
  - rewrite <- (Rmult_0_l (powerRZ 2 e)); apply Rmult_lt_compat_r; lra.
  - apply Rle_ge, Rmult_le_pos; lra.
Qed.
Lemma nearest_iff m k : (0 < m)%Z -> nearest s m k = x <-> rnd (IZR m * powerRZ 10 k) = V.
Proof.
  intros Hm; pose proof (nearest_spec s m k Hm) as A; destruct (value_nonzero _ _ _ _ HX) as (_ & N & Fx).
  assert (D : rnd (decimal s m k) = if s then - rnd (IZR m * powerRZ 10 k) else rnd (IZR m * powerRZ 10 k)).
  { unfold decimal; destruct s; [rewrite <- Ropp_mult_distr_l, round_NE_opp|]; reflexivity. }
  split; intros H.
  - rewrite H in A; destruct (Rlt_bool _ _).
    + destruct A as (_ & A & _); rewrite D, value_signed in A; destruct s; lra.
    + exfalso; rewrite A in Fx; destruct s; exact Fx.
  - assert (E : rnd (decimal s m k) = value x) by (rewrite D, H, value_signed; reflexivity); rewrite E in A.
    rewrite Rlt_bool_true in A by (rewrite value_B; apply abs_B2R_lt_emax); destruct A as (F & W & _); apply value_inj; congruence.
Qed.
Variables (num den j n : Z).
Hypothesis Hnum : (0 < num)%Z.
Hypothesis Hden : (0 < den)%Z.
Hypothesis HV : V = IZR num / IZR den.
Hypothesis Hj : powerRZ 10 (j - 1) <= V < powerRZ 10 j.
Hypothesis Hn : (1 <= n)%Z.
Let k := (j - n)%Z.
Let q := let (a, b) := scaled num den k in (a / b)%Z.
Lemma level_q : IZR q * powerRZ 10 k <= V < (IZR q + 1) * powerRZ 10 k /\ (10 ^ (n - 1) <= q < 10 ^ n)%Z.
Proof.
  unfold q; pose proof (scaled_spec num den k Hnum Hden) as S; destruct (scaled num den k) as [a b]; destruct S as (Ha & Hb & E); rewrite <- HV in E.
  pose proof (pow10_pos k) as Pk; destruct (floor_frac a b Hb) as [[L Up] _]; split; [rewrite <- E; split; [apply Rmult_le_compat_r; lra|apply Rmult_lt_compat_r; lra]|].
  assert (A1 : powerRZ 10 (j - 1) = powerRZ 10 (n - 1) * powerRZ 10 k) by (rewrite <- powerRZ_add by lra; f_equal; unfold k; lia).
  assert (A2 : powerRZ 10 j = powerRZ 10 n * powerRZ 10 k) by (rewrite <- powerRZ_add by lra; f_equal; unfold k; lia).
  rewrite A1, A2, <- E, (pow10_IZR (n - 1)), (pow10_IZR n) in Hj by lia; destruct Hj as [J1 J2]; apply Rmult_le_reg_r in J1; [|exact Pk]; apply Rmult_lt_reg_r in J2; [|exact Pk].
  split.
  - assert (IZR (10 ^ (n - 1)) < IZR (a / b + 1)) by (rewrite plus_IZR; lra); apply lt_IZR in H; lia.
  - apply lt_IZR; lra.
Qed.
Lemma V_fmt : fmt V. Proof. apply generic_format_abs, value_fmt. Qed.
(** decimals of at most [n] digits lie on the grid of [q] *)
Lemma grid_below m i : (0 < m <= 10 ^ n)%Z -> IZR m * powerRZ 10 i <= V -> IZR m * powerRZ 10 i <= IZR q * powerRZ 10 k.
Proof.
  intros Hm H; destruct level_q as ((L & Up) & Q1 & Q2); pose proof (pow10_pos k) as Pk; pose proof (pow10_pos i) as Pi.
  destruct (Z_le_gt_dec k i) as [I|I].
  - assert (E : IZR m * powerRZ 10 i = IZR (m * 10 ^ (i - k)) * powerRZ 10 k) by (rewrite mult_IZR, <- pow10_IZR, Rmult_assoc, <- powerRZ_add by (lia || lra); do 2 f_equal; lia).
    rewrite E in *; apply Rmult_le_compat_r; [lra|]; assert (IZR (m * 10 ^ (i - k)) < IZR (q + 1)) by (rewrite plus_IZR; apply Rmult_lt_reg_r with (powerRZ 10 k); lra).
    apply lt_IZR in H0; apply IZR_le; lia.
  - apply Rle_trans with (powerRZ 10 n * powerRZ 10 i); [apply Rmult_le_compat_r; [lra|]; rewrite pow10_IZR by lia; apply IZR_le; lia|].
    rewrite <- powerRZ_add by lra; apply Rle_trans with (powerRZ 10 (n - 1 + k)); [apply pow10_le; lia|].
    rewrite powerRZ_add by lra; apply Rmult_le_compat_r; [lra|]; rewrite pow10_IZR by lia; apply IZR_le; lia.
Qed.
Lemma grid_above m i : (0 < m <= 10 ^ n)%Z -> V < IZR m * powerRZ 10 i -> (IZR q + 1) * powerRZ 10 k <= IZR m * powerRZ 10 i.
Proof.
  intros Hm H; destruct level_q as ((L & Up) & Q1 & Q2); pose proof (pow10_pos k) as Pk; pose proof (pow10_pos i) as Pi.
  destruct (Z_le_gt_dec k i) as [I|I].
  - assert (E : IZR m * powerRZ 10 i = IZR (m * 10 ^ (i - k)) * powerRZ 10 k) by (rewrite mult_IZR, <- pow10_IZR, Rmult_assoc, <- powerRZ_add by (lia || lra); do 2 f_equal; lia).
    rewrite E in *; apply Rmult_le_compat_r; [lra|]; assert (IZR q < IZR (m * 10 ^ (i - k))) by (apply Rmult_lt_reg_r with (powerRZ 10 k); lra).
    apply lt_IZR in H0; rewrite <- plus_IZR; apply IZR_le; lia.
  - exfalso; apply (Rlt_irrefl V); apply Rlt_le_trans with (1 := H); apply Rle_trans with (powerRZ 10 n * powerRZ 10 i); [apply Rmult_le_compat_r; [lra|]; rewrite pow10_IZR by lia; apply IZR_le; lia|].
    rewrite <- powerRZ_add by lra; apply Rle_trans with (powerRZ 10 (j - 1)); [apply pow10_le; unfold k in I; lia|]; exact (proj1 Hj).
Qed.
Lemma hit_below m i : (0 < m <= 10 ^ n)%Z -> IZR m * powerRZ 10 i <= V -> nearest s m i = x -> nearest s q k = x.
Proof.
  intros Hm H E; destruct level_q as ((L & Up) & Q1 & Q2); assert (P1 : (0 < 10 ^ (n - 1))%Z) by (apply Z.pow_pos_nonneg; lia).
  apply nearest_iff in E; [|lia]; apply nearest_iff; [lia|]; apply Rle_antisym.
  - rewrite <- (rnd_fmt V V_fmt); apply rnd_le; exact L.
  - rewrite <- E; apply rnd_le, grid_below; assumption.
Qed.
Lemma hit_above m i : (0 < m <= 10 ^ n)%Z -> V < IZR m * powerRZ 10 i -> nearest s m i = x -> nearest s (q + 1) k = x.
Proof.
  intros Hm H E; destruct level_q as ((L & Up) & Q1 & Q2); assert (P1 : (0 < 10 ^ (n - 1))%Z) by (apply Z.pow_pos_nonneg; lia).
  apply nearest_iff in E; [|lia]; apply nearest_iff; [lia|]; rewrite plus_IZR; apply Rle_antisym.
  - rewrite <- E; apply rnd_le, grid_above; assumption.
  - rewrite <- (rnd_fmt V V_fmt); apply rnd_le; left; exact Up.
Qed.
Lemma pick_spec : match pick x s num den j n with
  | Some c => (10 ^ (n - 1) <= c <= 10 ^ n)%Z /\ nearest s c k = x /\
      (forall m i, (0 < m <= 10 ^ n)%Z -> nearest s m i = x -> Rabs (IZR c * powerRZ 10 k - V) <= Rabs (IZR m * powerRZ 10 i - V)) /\
      (forall m i, (0 < m <= 10 ^ n)%Z -> nearest s m i = x -> Rabs (IZR c * powerRZ 10 k - V) = Rabs (IZR m * powerRZ 10 i - V) -> IZR m * powerRZ 10 i = IZR c * powerRZ 10 k \/ Z.even c = true)
  | None => forall m i, (0 < m <= 10 ^ n)%Z -> nearest s m i <> x
  end.
Proof.
  destruct (value_nonzero _ _ _ _ HX) as (_ & N & Fx).
  pose proof level_q as LQ; pose proof hit_below as HB; pose proof hit_above as HA; pose proof grid_below as GB; pose proof grid_above as GA.
  unfold pick; fold k; change (if (0 <=? k)%Z then (num, den * 10 ^ k)%Z else (num * 10 ^ (- k), den)%Z) with (scaled num den k).
  unfold q in *; pose proof (scaled_spec num den k Hnum Hden) as S; destruct (scaled num den k) as [a b]; destruct S as (Ha & Hb & E); rewrite <- HV in E.
  set (Q := (a / b)%Z) in *; destruct LQ as ((L & Up) & Q1 & Q2); pose proof (pow10_pos k) as Pk.
  assert (Cl : PrimFloat.eqb (nearest s Q k) x = true <-> nearest s Q k = x) by (apply eqb_value; assumption).
  assert (Ch : PrimFloat.eqb (nearest s (Q + 1) k) x = true <-> nearest s (Q + 1) k = x) by (apply eqb_value; assumption).
  assert (AL : Rabs (IZR Q * powerRZ 10 k - V) = V - IZR Q * powerRZ 10 k) by (rewrite Rabs_left1; lra).
  assert (AH : Rabs (IZR (Q + 1) * powerRZ 10 k - V) = (IZR Q + 1) * powerRZ 10 k - V) by (rewrite plus_IZR, Rabs_right; lra).
  assert (MB : forall m i, (0 < m <= 10 ^ n)%Z -> IZR m * powerRZ 10 i <= V -> V - IZR Q * powerRZ 10 k <= Rabs (IZR m * powerRZ 10 i - V)).
  { intros m i Hm H; rewrite Rabs_left1 by lra; pose proof (GB m i Hm H); lra. }
  assert (MA : forall m i, (0 < m <= 10 ^ n)%Z -> V < IZR m * powerRZ 10 i -> (IZR Q + 1) * powerRZ 10 k - V <= Rabs (IZR m * powerRZ 10 i - V)).
  { intros m i Hm H; rewrite Rabs_right by lra; pose proof (GA m i Hm H); lra. }
  destruct (PrimFloat.eqb (nearest s Q k) x) eqn:El, (PrimFloat.eqb (nearest s (Q + 1) k) x) eqn:Eh.
  - assert (Nl := proj1 Cl eq_refl); assert (Nh := proj1 Ch eq_refl).
    destruct (floor_frac a b Hb) as [_ FR]; fold Q in FR; assert (Pb : 0 < IZR b) by (apply IZR_lt; exact Hb).
    assert (VR : V = (IZR Q + IZR (a mod b) / IZR b) * powerRZ 10 k) by (rewrite <- E, FR; reflexivity).
    assert (Half : forall t, 2 * IZR (a mod b) * t <= IZR b * t -> 0 < t -> IZR (a mod b) / IZR b <= 1 / 2).
    { intros t Ht Pt; apply Rmult_le_reg_r in Ht; [|exact Pt]; apply Rmult_le_reg_r with (IZR b); [exact Pb|]; unfold Rdiv; rewrite Rmult_assoc, Rinv_l by lra; lra. }
    assert (Half' : IZR b <= 2 * IZR (a mod b) -> 1 / 2 <= IZR (a mod b) / IZR b).
    { intros Ht; apply Rmult_le_reg_r with (IZR b); [exact Pb|]; unfold Rdiv at 2; rewrite Rmult_assoc, Rinv_l by lra; lra. }
    set (f := IZR (a mod b) / IZR b) in *; destruct ((2 * (a mod b) <? b)%Z || (2 * (a mod b) =? b)%Z && Z.even Q)%bool eqn:T.
    + assert (F : f <= 1 / 2).
      { apply (Half 1); [|lra]; rewrite !Rmult_1_r, <- mult_IZR; apply IZR_le; apply Bool.orb_true_iff in T; destruct T as [T|T]; [apply Z.ltb_lt in T; lia|apply andb_prop in T; destruct T as [T _]; apply Z.eqb_eq in T; lia]. }
      split; [lia|split; [exact Nl|split]]; intros m i Hm _; rewrite AL.
      * destruct (Rle_lt_dec (IZR m * powerRZ 10 i) V) as [C|C]; [apply MB; assumption|].
        apply Rle_trans with (2 := MA m i Hm C); pose proof (Rmult_le_compat_r (powerRZ 10 k) _ _ ltac:(lra) F); rewrite VR; nra.
      * intros ED; destruct (Rle_lt_dec (IZR m * powerRZ 10 i) V) as [C|C]; [left; rewrite Rabs_left1 in ED by lra; lra|right].
        pose proof (MA m i Hm C) as M; rewrite <- ED, VR in M; assert (F2 : 1 / 2 <= f) by (apply Rmult_le_reg_r with (powerRZ 10 k); [exact Pk|nra]).
        assert (F3 : f * IZR b = IZR (a mod b)) by (unfold f, Rdiv; rewrite Rmult_assoc, Rinv_l by lra; ring).
        apply Bool.orb_true_iff in T; destruct T as [T|T]; [exfalso; apply Z.ltb_lt, IZR_lt in T; rewrite mult_IZR in T; nra|apply andb_prop in T; apply T].
    + assert (F : 1 / 2 <= f).
      { apply Half'; rewrite <- mult_IZR; apply IZR_le; apply Bool.orb_false_iff in T; destruct T as [T _]; apply Z.ltb_ge in T; lia. }
      split; [lia|split; [exact Nh|split]]; intros m i Hm _; rewrite AH.
      * destruct (Rle_lt_dec (IZR m * powerRZ 10 i) V) as [C|C]; [|apply MA; assumption].
        apply Rle_trans with (2 := MB m i Hm C); pose proof (Rmult_le_compat_r (powerRZ 10 k) _ _ ltac:(lra) F); rewrite VR; nra.
      * intros ED; destruct (Rle_lt_dec (IZR m * powerRZ 10 i) V) as [C|C]; [right|left; rewrite Rabs_right in ED by lra; rewrite plus_IZR; lra].
        pose proof (MB m i Hm C) as M; rewrite <- ED, VR in M; assert (F2 : f <= 1 / 2) by (apply Rmult_le_reg_r with (powerRZ 10 k); [exact Pk|nra]).
        assert (F3 : f * IZR b = IZR (a mod b)) by (unfold f, Rdiv; rewrite Rmult_assoc, Rinv_l by lra; ring).
        apply Bool.orb_false_iff in T; destruct T as [T1 T2]; assert (T3 : (2 * (a mod b) = b)%Z) by (apply Z.ltb_ge in T1; assert (2 * (a mod b) <= b)%Z by (apply le_IZR; rewrite mult_IZR; nra); lia).
        rewrite T3, Z.eqb_refl in T2; cbn [andb] in T2; rewrite Z.even_add, T2; reflexivity.
  - split; [lia|split; [apply Cl; reflexivity|split]]; intros m i Hm Hi; rewrite AL.
    2: intros ED.
    all: destruct (Rle_lt_dec (IZR m * powerRZ 10 i) V) as [C|C]; [first [apply MB; assumption|left; rewrite Rabs_left1 in ED by lra; lra]|].
    all: assert (F : false = true) by (apply Ch; exact (HA m i Hm C Hi)); discriminate F.
  - split; [lia|split; [apply Ch; reflexivity|split]]; intros m i Hm Hi; rewrite AH.
    2: intros ED.
    all: destruct (Rle_lt_dec (IZR m * powerRZ 10 i) V) as [C|C]; [|first [apply MA; assumption|left; rewrite Rabs_right in ED by lra; rewrite plus_IZR; lra]].
    all: assert (F : false = true) by (apply Cl; exact (HB m i Hm C Hi)); discriminate F.
  - intros m i Hm Hi; destruct (Rle_lt_dec (IZR m * powerRZ 10 i) V) as [C|C].
    + assert (F : false = true) by (apply Cl; exact (HB m i Hm C Hi)); discriminate F.
    + assert (F : false = true) by (apply Ch; exact (HA m i Hm C Hi)); discriminate F.
Qed.
End Level.
Lemma shortest_first x s num den j : forall l, (exists n c, In n l /\ pick x s num den j n = Some c) ->
  exists a n b c, l = a ++ n :: b /\ pick x s num den j n = Some c /\ shortest x s num den j l = (c, n) /\ forall n', In n' a -> pick x s num den j n' = None.
Proof.
  induction l as [|n l IH]; intros (n0 & c0 & I & E); [destruct I|]; cbn [shortest].
  destruct (pick x s num den j n) as [c|] eqn:P.
  - exists [], n, l, c; repeat split; [exact P|intros ? []].
  - destruct I as [<-|I]; [congruence|]; destruct IH as (a & n1 & b & c & -> & H1 & H2 & H3); [exists n0, c0; split; assumption|].
    exists (n :: a), n1, b, c; split; [reflexivity|split; [exact H1|split; [exact H2|]]]; intros n' [<-|H]; [exact P|apply H3; exact H].
Qed.
Lemma zrange_split lo hi a n b : zrange lo hi = a ++ n :: b -> (lo <= n < hi)%Z /\ forall i, (lo <= i < n)%Z -> In i a.
Proof.
  unfold zrange; intros E.
  assert (L : forall m st a b, map (fun k => lo + Z.of_nat k)%Z (seq st m) = a ++ n :: b -> exists i, (st <= i < st + m)%nat /\ n = (lo + Z.of_nat i)%Z /\ a = map (fun k => lo + Z.of_nat k)%Z (seq st (i - st))).
  { induction m as [|m IH]; intros st a' b' H; [destruct a'; discriminate|]; destruct a' as [|x a']; cbn in H; injection H as H1 H2.
    - exists st; split; [lia|split; [lia|]]; rewrite Nat.sub_diag; reflexivity.
    - destruct (IH _ _ _ H2) as (i & I1 & I2 & I3); exists i; split; [lia|split; [exact I2|]]; replace (i - st)%nat with (S (i - S st)) by lia; cbn; rewrite I3, H1; reflexivity. }
  destruct (L _ _ _ _ E) as (i & I1 & -> & ->); split; [lia|]; intros z Hz; apply in_map_iff; exists (Z.to_nat (z - lo)); split; [lia|apply in_seq; lia].
Qed.
Lemma shortest_spec x s p e : FloatOps.Prim2SF x = S754_finite s p e ->
  let (num, den) := parts p e in let j := point_position num den in
  (-323 <= j <= 309)%Z /\ powerRZ 10 (j - 1) <= Rabs (value x) < powerRZ 10 j /\
  exists c n, shortest x s num den j (zrange 1 18) = (c, n) /\ (1 <= n <= 17)%Z /\ (10 ^ (n - 1) <= c <= 10 ^ n)%Z /\ nearest s c (j - n) = x /\
    (forall m i, (0 < m <= 10 ^ n)%Z -> nearest s m i = x -> Rabs (IZR c * powerRZ 10 (j - n) - Rabs (value x)) <= Rabs (IZR m * powerRZ 10 i - Rabs (value x))) /\
    (forall m i, (0 < m <= 10 ^ n)%Z -> nearest s m i = x -> Rabs (IZR c * powerRZ 10 (j - n) - Rabs (value x)) = Rabs (IZR m * powerRZ 10 i - Rabs (value x)) ->
       IZR m * powerRZ 10 i = IZR c * powerRZ 10 (j - n) \/ Z.even c = true) /\
    forall m i, (1 < n)%Z -> (0 < m <= 10 ^ (n - 1))%Z -> nearest s m i <> x.
Proof.
  intros HX; pose proof (parts_spec s p e x HX) as PS; destruct (parts p e) as [num den]; destruct PS as (Hn & Hd & HV); cbv zeta.
  pose proof (value_range s p e x HX) as VR; rewrite HV in VR; destruct (point_position_spec num den Hd VR) as [Rj Hj]; set (j := point_position num den) in *; rewrite <- HV in Hj.
  split; [exact Rj|split; [exact Hj|]].
  assert (PK := fun n => pick_spec x s p e HX num den j n Hn Hd HV Hj).
  assert (F17 : exists c, pick x s num den j 17 = Some c).
  { specialize (PK 17%Z ltac:(lia)); destruct (pick x s num den j 17) as [c|]; [exists c; reflexivity|exfalso].
    destruct (level_q x num den j 17 Hn Hd HV Hj ltac:(lia)) as ((L & Up) & Q1 & Q2).
    set (q := let (a, b) := scaled num den (j - 17) in (a / b)%Z) in *; set (t := powerRZ 10 (j - 17)) in *.
    assert (T : t * 10 ^ 16 = powerRZ 10 (j - 1)).
    { unfold t; replace (10 ^ 16) with (powerRZ 10 16) by (rewrite pow10_IZR by lia; change (10 ^ 16)%Z with 10000000000000000%Z; lra); rewrite <- powerRZ_add by lra; f_equal; lia. }
    assert (Q0 : (0 < q)%Z) by (apply Z.lt_le_trans with (2 := Q1); reflexivity).
    destruct (Rle_lt_dec (Rabs (value x)) ((IZR q + / 2) * t)) as [C|C].
    - apply (PK q (j - 17)%Z); [lia|]; apply (nearest_hit s p e x); [exact HX|exact Q0|]; fold t; rewrite Rabs_left1 by lra; lra.
    - apply (PK (q + 1)%Z (j - 17)%Z); [lia|]; apply (nearest_hit s p e x); [exact HX|lia|]; fold t; rewrite plus_IZR, Rabs_right by lra; lra. }
  destruct F17 as (c17 & F17).
  destruct (shortest_first x s num den j (zrange 1 18)) as (a & n & b & c & Ez & Ep & Es & Nn); [exists 17%Z, c17; split; [vm_compute; tauto|exact F17]|].
  destruct (zrange_split _ _ _ _ _ Ez) as (N1 & N2).
  exists c, n; split; [exact Es|split; [lia|]]; pose proof (PK n ltac:(lia)) as P; rewrite Ep in P; destruct P as (P1 & P2 & P3 & P4).
  split; [exact P1|split; [exact P2|split; [exact P3|split; [exact P4|]]]].
  intros m i Hlt Hm; pose proof (PK (n - 1)%Z ltac:(lia)) as P'; rewrite (Nn (n - 1)%Z) in P' by (apply N2; lia); apply P'; exact Hm.
Qed.
