(** Linear interpolation on binary64 numbers: [np_linspace] and the rows of a
    ruled net. *)
From Coq Require Import Reals Lra Lia ZArith List Floats.
From Flocq Require Import Core.Core.
From Verif Require Import Py PyLemmas Num ModelKnots Spec SpecB64 ProofB64 ProofB64Basis ProofB64Span ProofB64Knots ProofB64Curve ProofB64Insert.
Import ListNotations.
Open Scope R_scope.

Lemma product3 t D e1 e2 e3 M : 0 <= t <= 1 -> Rabs D <= 2 * M -> Rabs e1 <= ulp64 -> Rabs e2 <= ulp64 -> Rabs e3 <= ulp64 ->
  Rabs (t * D * (1 + e1) * (1 + e2) * (1 + e3) - t * D) <= 602/100 * ulp64 * M.
Proof.
  intros Ht HD H1 H2 H3; pose proof ulp64_small as Hu; set (u := ulp64) in *.
  assert (M0 : 0 <= M) by (pose proof (Rabs_pos D); lra).
  assert (uu : u * u <= / 1000 * u) by (apply Rmult_le_compat_r; lra).
  assert (A : Rabs ((1 + e1) * (1 + e2) - 1) <= 2001/1000 * u).
  { replace ((1 + e1) * (1 + e2) - 1) with (e1 + e2 + e1 * e2) by ring.
    assert (Rabs (e1 * e2) <= u * u) by (rewrite Rabs_mult; apply Rmult_le_compat; try apply Rabs_pos; assumption).
    apply Rle_trans with (1 := Rabs_triang _ _); pose proof (Rabs_triang e1 e2); lra. }
  assert (B : Rabs ((1 + e1) * (1 + e2) * (1 + e3) - 1) <= 301/100 * u).
  { set (r := (1 + e1) * (1 + e2)) in *.
    replace (r * (1 + e3) - 1) with ((r - 1) + e3 + (r - 1) * e3) by ring.
    assert (Rabs ((r - 1) * e3) <= 2001/1000 * u * u) by (rewrite Rabs_mult; apply Rmult_le_compat; try apply Rabs_pos; assumption).
    apply Rle_trans with (1 := Rabs_triang _ _); pose proof (Rabs_triang (r - 1) e3); lra. }
  replace (t * D * (1 + e1) * (1 + e2) * (1 + e3) - t * D) with (t * D * ((1 + e1) * (1 + e2) * (1 + e3) - 1)) by ring.
  rewrite !Rabs_mult, (Rabs_right t) by lra.
  assert (T : t * Rabs D <= 2 * M) by (pose proof (Rabs_pos D); nra).
  apply Rle_trans with (2 * M * (301/100 * u)); [apply Rmult_le_compat; try apply Rabs_pos; try assumption; apply Rmult_le_pos; [lra|apply Rabs_pos]|lra].
Qed.

(** The last addition. *)
Lemma lerp_last a b t M X k : fmt a -> fmt X -> Rabs a <= M -> Rabs b <= M -> 0 <= t <= 1 -> 0 <= k ->
  Rabs (X - t * (b - a)) <= 61/10 * ulp64 * M + k ->
  Rabs (rnd (X + a) - (a + t * (b - a))) <= 8 * ulp64 * M + 2 * k /\ Rabs (X + a) <= 2 * M + 2 * k.
Proof.
  intros Fa FX Ha Hb Ht Hk H; pose proof ulp64_small as Hu.
  assert (M0 : 0 <= M) by (pose proof (Rabs_pos a); lra).
  destruct (rnd_add_err X a FX Fa) as (e & He & ->).
  set (z := a + t * (b - a)).
  assert (Hz : Rabs z <= M).
  { unfold z; replace (a + t * (b - a)) with ((1 - t) * a + t * b) by ring.
    apply Rle_trans with (1 := Rabs_triang _ _); rewrite !Rabs_mult, (Rabs_right t), (Rabs_right (1 - t)) by lra; nra. }
  assert (E : Rabs (X + a - z) <= 61/10 * ulp64 * M + k) by (unfold z; replace (X + a - (a + t * (b - a))) with (X - t * (b - a)) by ring; exact H).
  assert (uM : 0 <= ulp64 * M <= / 1000 * M) by (split; [apply Rmult_le_pos; lra|apply Rmult_le_compat_r; lra]).
  assert (S : Rabs (X + a) <= M + (61/10 * ulp64 * M + k)).
  { replace (X + a) with (z + (X + a - z)) by ring; apply Rle_trans with (1 := Rabs_triang _ _); lra. }
  split; [|lra].
  replace ((X + a) * (1 + e) - z) with ((X + a - z) + (X + a) * e) by ring.
  apply Rle_trans with (1 := Rabs_triang _ _); rewrite Rabs_mult.
  assert (Q : Rabs (X + a) * Rabs e <= (M + (61/10 * ulp64 * M + k)) * ulp64) by (apply Rmult_le_compat; try apply Rabs_pos; assumption).
  assert (uuM : ulp64 * (ulp64 * M) <= / 1000 * (ulp64 * M)) by (apply Rmult_le_compat_r; lra).
  assert (uk : ulp64 * k <= / 1000 * k) by (apply Rmult_le_compat_r; lra).
  replace ((M + (61/10 * ulp64 * M + k)) * ulp64) with (ulp64 * M + 61/10 * (ulp64 * (ulp64 * M)) + ulp64 * k) in Q by ring.
  lra.
Qed.

Section Lerp.
Variables (a b : PrimFloat.float) (i m : Z) (M : R).
Hypothesis Fa : finite64 a.
Hypothesis Fb : finite64 b.
Hypothesis Ha : Rabs (value a) <= M.
Hypothesis Hb : Rabs (value b) <= M.
Hypothesis HM : M <= 2 ^ 1000.
Hypothesis Hi : (0 <= i <= m)%Z.
Hypothesis Hm : (1 <= m <= 2 ^ 49)%Z.
Notation u := ulp64.
Notation t := (IZR i / IZR m).
Notation D := (value b - value a).

Lemma lerp_t : 0 <= t <= 1 /\ 1 <= IZR m /\ 0 <= IZR i <= IZR m.
Proof.
  assert (A : 1 <= IZR m) by (apply IZR_le; lia).
  assert (B : 0 <= IZR i <= IZR m) by (split; apply IZR_le; lia).
  split; [|tauto]; split; [apply Rmult_le_pos; [lra|left; apply Rinv_0_lt_compat; lra]|].
  apply (Rmult_le_reg_r (IZR m)); [lra|]; unfold Rdiv; rewrite Rmult_assoc, Rinv_l, Rmult_1_r, Rmult_1_l by lra; lra.
Qed.
Lemma lerp_D : 0 <= M /\ Rabs D <= 2 * M /\ finite64 (b - a)%float /\ value (b - a)%float = rnd D /\
  (exists e, Rabs e <= u /\ value (b - a)%float = D * (1 + e)) /\ Rabs (value (b - a)%float) <= bpow radix2 1001.
Proof.
  assert (M0 : 0 <= M) by (pose proof (Rabs_pos (value a)); lra).
  assert (HD : Rabs D <= 2 * M) by (unfold Rminus; apply Rle_trans with (1 := Rabs_triang _ _); rewrite Rabs_Ropp; lra).
  destruct (difference64 b a Fb Fa ltac:(lra) ltac:(lra)) as (F & V & X).
  split; [exact M0|]; split; [exact HD|]; split; [exact F|]; split; [exact V|]; split; [exact X|].
  rewrite V; apply rnd_bound; [lia|]; change 1001%Z with (1 + 1000)%Z; rewrite <- two_bpow, bpow_powerRZ.
  change (powerRZ (IZR radix2) 1000) with (2 ^ 1000); lra.
Qed.
Lemma eta_small : 0 < eta64 <= / 1000 * u.
Proof.
  pose proof eta64_pos; pose proof eta_ulp as E; split; [assumption|].
  assert (1000 <= 2 ^ 100) by (apply Rle_trans with (2 ^ 10); [cbn; lra|apply Rle_pow; [lra|lia]]).
  assert (eta64 * 1000 <= eta64 * 2 ^ 100) by (apply Rmult_le_compat_l; lra); lra.
Qed.
Lemma bpow_1003 : bpow radix2 1003 = 8 * 2 ^ 1000 /\ bpow radix2 1001 = 2 * 2 ^ 1000.
Proof.
  assert (P : bpow radix2 1000 = 2 ^ 1000) by (rewrite bpow_powerRZ; reflexivity).
  split; [change 1003%Z with (1 + (1 + (1 + 1000)))%Z|change 1001%Z with (1 + 1000)%Z]; rewrite <- !two_bpow, P; ring.
Qed.

(** [i / m * (b - a)]. *)
Lemma ratio_first : let X := ((ofZ i : Binary64) / (ofZ m : Binary64) * (b - a))%float in
  finite64 X /\ (i = 0%Z -> value X = 0) /\ Rabs (value X - t * D) <= 61/10 * u * M + eta64 /\
  (value a = value b -> value X = 0).
Proof.
  intros X; destruct lerp_t as (Ht & Hm1 & Hi1); destruct lerp_D as (M0 & HD & Fd & Vd & (e1 & He1 & Ed) & Bd).
  destruct (ofZ64 i ltac:(lia)) as (Fi & Vi); destruct (ofZ64 m ltac:(lia)) as (Fm & Vm).
  destruct (div64 (ofZ i : Binary64) (ofZ m : Binary64) Fi Fm) as (Fw & Vw); [rewrite Vm; lra| |].
  { rewrite Vi, Vm; apply rnd_safe with 0%Z; [lia|]; rewrite Rabs_right by lra; cbn [bpow]; lra. }
  rewrite Vi, Vm in Vw; set (w := ((ofZ i : Binary64) / (ofZ m : Binary64))%float) in *.
  assert (W : 0 <= value w <= 1) by (rewrite Vw; apply rnd_unit; exact Ht).
  assert (Q : Rabs (value w * value (b - a)%float) <= bpow radix2 1001).
  { rewrite Rabs_mult, (Rabs_right (value w)) by lra; pose proof (Rabs_pos (value (b - a)%float)); nra. }
  destruct (mul64 w (b - a)%float Fw Fd) as (FX & VX); [apply rnd_safe with 1001%Z; [lia|exact Q]|].
  split; [exact FX|]; split.
  { intros ->; fold X in VX; rewrite VX, Vw; unfold Rdiv; rewrite Rmult_0_l, rnd_0, Rmult_0_l; apply rnd_0. }
  split; [|intros E; fold X in VX; rewrite VX, Vd, E, Rminus_diag_eq, rnd_0, Rmult_0_r by reflexivity; apply rnd_0].
  destruct (rnd_err t) as (e2 & h2 & He2 & Hh2 & X2).
  destruct (rnd_err (value w * value (b - a)%float)) as (e3 & h3 & He3 & Hh3 & X3).
  fold X in VX; rewrite VX, X3, Vw, X2, Ed.
  replace ((t * (1 + e2) + h2) * (D * (1 + e1)) * (1 + e3) + h3 - t * D)
    with ((t * D * (1 + e1) * (1 + e2) * (1 + e3) - t * D) + h2 * (D * ((1 + e1) * (1 + e3))) + h3) by ring.
  pose proof (product3 t D e1 e2 e3 M Ht HD He1 He2 He3) as P3.
  pose proof ulp64_small as Hu; pose proof eta_small as Heta.
  assert (R : Rabs (h2 * (D * ((1 + e1) * (1 + e3)))) <= 3/1000 * u * M).
  { rewrite !Rabs_mult.
    assert (Rabs (1 + e1) <= 11/10 /\ Rabs (1 + e3) <= 11/10) as (C1 & C3).
    { apply Rabs_le_inv in He1; apply Rabs_le_inv in He3; split; apply Rabs_le; lra. }
    assert (Rabs (1 + e1) * Rabs (1 + e3) <= 11/10 * (11/10)) by (apply Rmult_le_compat; try apply Rabs_pos; assumption).
    assert (C : Rabs D * (Rabs (1 + e1) * Rabs (1 + e3)) <= 2 * M * (11/10 * (11/10)))
      by (apply Rmult_le_compat; try apply Rabs_pos; try assumption; apply Rmult_le_pos; apply Rabs_pos).
    assert (Rabs h2 * (Rabs D * (Rabs (1 + e1) * Rabs (1 + e3))) <= / 1000 * u * (2 * M * (11/10 * (11/10)))).
    { apply Rmult_le_compat; try apply Rabs_pos; [|lra|exact C]. apply Rmult_le_pos; [apply Rabs_pos|apply Rmult_le_pos; apply Rabs_pos]. }
    assert (0 <= u * M) by (apply Rmult_le_pos; lra); lra. }
  assert (0 <= u * M) by (apply Rmult_le_pos; lra).
  apply Rle_trans with (1 := Rabs_triang _ _); apply Rle_trans with (602/100 * u * M + 3/1000 * u * M + Rabs h3); [|lra].
  apply Rplus_le_compat_r; apply Rle_trans with (1 := Rabs_triang _ _); lra.
Qed.

(** [i * ((b - a) / m)]. *)
Lemma step_first : let X := ((ofZ i : Binary64) * ((b - a) / (ofZ m : Binary64)))%float in
  finite64 X /\ (i = 0%Z -> value X = 0) /\ Rabs (value X - t * D) <= 61/10 * u * M + (IZR m + 2) * eta64 /\
  finite64 ((b - a) / (ofZ m : Binary64))%float /\ value ((b - a) / (ofZ m : Binary64))%float = rnd (rnd D / IZR m) /\
  value X = rnd (IZR i * rnd (rnd D / IZR m)).
Proof.
  intros X; destruct lerp_t as (Ht & Hm1 & Hi1); destruct lerp_D as (M0 & HD & Fd & Vd & (e1 & He1 & Ed) & Bd).
  destruct (ofZ64 i ltac:(lia)) as (Fi & Vi); destruct (ofZ64 m ltac:(lia)) as (Fm & Vm).
  pose proof ulp64_small as Hu; pose proof eta_small as Heta; destruct bpow_1003 as (B3 & B1).
  assert (P1 : 1 <= 2 ^ 1000) by (apply pow_R1_Rle; lra).
  assert (im : 0 <= / IZR m <= 1) by (split; [left; apply Rinv_0_lt_compat; lra|rewrite <- Rinv_1; apply Rinv_le_contravar; lra]).
  assert (Q : Rabs (value (b - a)%float / IZR m) <= bpow radix2 1001).
  { unfold Rdiv; rewrite Rabs_mult, (Rabs_right (/ IZR m)) by lra; pose proof (Rabs_pos (value (b - a)%float)); nra. }
  destruct (div64 (b - a)%float (ofZ m : Binary64) Fd Fm) as (Fs & Vs); [rewrite Vm; lra|rewrite Vm; apply rnd_safe with 1001%Z; [lia|exact Q]|].
  rewrite Vm in Vs; set (s := ((b - a) / (ofZ m : Binary64))%float) in *.
  destruct (rnd_err (value (b - a)%float / IZR m)) as (e2 & h2 & He2 & Hh2 & X2); rewrite <- Vs in X2.
  assert (ES : IZR i * value s = t * D * (1 + e1) * (1 + e2) + IZR i * h2) by (rewrite X2, Ed; field; lra).
  pose proof (product3 t D e1 e2 0 M Ht HD He1 He2 ltac:(rewrite Rabs_R0; lra)) as P2; rewrite Rplus_0_r, Rmult_1_r in P2.
  assert (M49 : IZR m * eta64 <= / 1000).
  { pose proof eta_ulp as E; assert (IZR m <= 2 ^ 49) by (rewrite pow_IZR; apply IZR_le; cbn [Z.of_nat]; lia).
    assert (2 ^ 49 <= 2 ^ 100) by (apply Rle_pow; [lra|lia]).
    assert (IZR m * eta64 <= 2 ^ 100 * eta64) by (apply Rmult_le_compat_r; lra); lra. }
  assert (IH : Rabs (IZR i * h2) <= IZR m * eta64).
  { rewrite Rabs_mult, (Rabs_right (IZR i)) by lra; apply Rmult_le_compat; try apply Rabs_pos; lra. }
  assert (uM : 0 <= u * M <= / 1000 * M) by (split; [apply Rmult_le_pos; lra|apply Rmult_le_compat_r; lra]).
  assert (tD : Rabs (t * D) <= 2 * M) by (rewrite Rabs_mult, (Rabs_right t) by lra; pose proof (Rabs_pos D); nra).
  assert (SB : Rabs (IZR i * value s) <= bpow radix2 1003).
  { rewrite ES; replace (t * D * (1 + e1) * (1 + e2) + IZR i * h2) with (t * D + (t * D * (1 + e1) * (1 + e2) - t * D) + IZR i * h2) by ring.
    apply Rle_trans with (1 := Rabs_triang _ _); apply Rle_trans with (2 * M + 602 / 100 * u * M + IZR m * eta64); [|rewrite B3; lra].
    apply Rplus_le_compat; [|exact IH]; apply Rle_trans with (1 := Rabs_triang _ _); lra. }
  destruct (mul64 (ofZ i : Binary64) s Fi Fs) as (FX & VX); [rewrite Vi; apply rnd_safe with 1003%Z; [lia|exact SB]|].
  split; [exact FX|]; fold X in VX; rewrite Vi in VX; split.
  { intros ->; rewrite VX, Rmult_0_l; apply rnd_0. }
  rewrite Vd in Vs; split; [|split; [exact Fs|split; [exact Vs|rewrite <- Vs; exact VX]]].
  destruct (rnd_err (IZR i * value s)) as (e3 & h3 & He3 & Hh3 & X3); rewrite VX, X3, ES.
  replace ((t * D * (1 + e1) * (1 + e2) + IZR i * h2) * (1 + e3) + h3 - t * D)
    with ((t * D * (1 + e1) * (1 + e2) * (1 + e3) - t * D) + (IZR i * h2 + IZR i * h2 * e3) + h3) by ring.
  pose proof (product3 t D e1 e2 e3 M Ht HD He1 He2 He3) as P3.
  assert (R : Rabs (IZR i * h2 * e3) <= / 10 * eta64).
  { apply Rle_trans with (IZR m * eta64 * u); [rewrite Rabs_mult; apply Rmult_le_compat; try apply Rabs_pos; assumption|].
    assert (IZR m * u <= / 10).
    { pose proof (m_ulp m Hm) as MU. assert (12 * u * IZR m <= 1 / IZR m * IZR m) by (apply Rmult_le_compat_r; lra). 
      unfold Rdiv in *; rewrite Rmult_1_l, Rinv_l in * by lra; lra. }
    replace (IZR m * eta64 * u) with (IZR m * u * eta64) by ring; apply Rmult_le_compat_r; lra. }
  apply Rle_trans with (1 := Rabs_triang _ _); apply Rle_trans with (602/100 * u * M + (IZR m * eta64 + / 10 * eta64) + eta64); [|lra].
  apply Rplus_le_compat; [|exact Hh3]; apply Rle_trans with (1 := Rabs_triang _ _); apply Rplus_le_compat; [lra|].
  apply Rle_trans with (1 := Rabs_triang _ _); lra.
Qed.

(** The sum, in either order. *)
Lemma lerp_sum X k : finite64 X -> 0 <= k <= 1 -> Rabs (value X - t * D) <= 61/10 * u * M + k ->
  (i = 0%Z -> value X = 0) ->
  (finite64 (X + a)%float /\ value (X + a)%float = rnd (value X + value a) /\ (i = 0%Z -> value (X + a)%float = value a) /\
   Rabs (value (X + a)%float - (value a + t * D)) <= 8 * u * M + 2 * k) /\
  finite64 (a + X)%float /\ (i = 0%Z -> value (a + X)%float = value a) /\
   Rabs (value (a + X)%float - (value a + t * D)) <= 8 * u * M + 2 * k.
Proof.
  intros FX Hk HX H0; destruct lerp_t as (Ht & _).
  destruct (lerp_last (value a) (value b) t M (value X) k (value_fmt a) (value_fmt X) Ha Hb Ht ltac:(lra) HX) as (E & S).
  assert (P1 : 1 <= 2 ^ 1000) by (apply pow_R1_Rle; lra).
  assert (B : Rabs (value X + value a) <= bpow radix2 1003) by (rewrite (proj1 bpow_1003); lra).
  split.
  - destruct (add64 X a FX Fa) as (F & V); [apply rnd_safe with 1003%Z; [lia|exact B]|]; split; [exact F|]; split; [exact V|]; rewrite V; split; [|exact E].
    intros Z0; rewrite (H0 Z0), Rplus_0_l; apply rnd_fmt, value_fmt.
  - rewrite Rplus_comm in E, B; destruct (add64 a X Fa FX) as (F & V); [apply rnd_safe with 1003%Z; [lia|exact B]|]; rewrite V; split; [exact F|]; split; [|exact E].
    intros Z0; rewrite (H0 Z0), Rplus_0_r; apply rnd_fmt, value_fmt.
Qed.
End Lerp.

Lemma eta_m m : (1 <= m <= 2 ^ 49)%Z -> 0 <= (IZR m + 2) * eta64 <= 1.
Proof.
  intros Hm; pose proof eta_ulp as E; pose proof eta64_pos; pose proof ulp64_small.
  assert (1 <= IZR m) by (apply IZR_le; lia).
  assert (IZR m + 2 <= 2 ^ 50) by (rewrite <- plus_IZR, pow_IZR; apply IZR_le; cbn [Z.of_nat]; lia).
  assert (2 ^ 50 <= 2 ^ 100) by (apply Rle_pow; [lra|lia]).
  assert ((IZR m + 2) * eta64 <= 2 ^ 100 * eta64) by (apply Rmult_le_compat_r; lra).
  split; [apply Rmult_le_pos; lra|lra].
Qed.

(** ** Staying between the two ends *)
Lemma rnd_opp x : rnd (- x) = - rnd x.
Proof. apply round_NE_opp. Qed.
Definition lin (a b : R) (m i : Z) : R := rnd (rnd (IZR i * rnd (rnd (b - a) / IZR m)) + a).
Lemma lin_opp a b m i : lin (- a) (- b) m i = - lin a b m i.
Proof.
  unfold lin; replace (- b - - a) with (- (b - a)) by ring; rewrite rnd_opp.
  unfold Rdiv; rewrite Ropp_mult_distr_l_reverse, rnd_opp, Ropp_mult_distr_r_reverse, rnd_opp, <- Ropp_plus_distr, rnd_opp; reflexivity.
Qed.
Lemma lin_up a b m i j : a <= b -> (1 <= m)%Z -> (i <= j)%Z -> lin a b m i <= lin a b m j.
Proof.
  intros H Hm Hij; unfold lin; assert (1 <= IZR m) by (apply IZR_le; lia).
  assert (0 <= rnd (rnd (b - a) / IZR m)).
  { apply rnd_nonneg; apply Rmult_le_pos; [apply rnd_nonneg; lra|left; apply Rinv_0_lt_compat; lra]. }
  apply rnd_le, Rplus_le_compat_r, rnd_le, Rmult_le_compat_r; [assumption|apply IZR_le; exact Hij].
Qed.
Lemma lin_0 a b m : fmt a -> lin a b m 0 = a.
Proof. intros Fa; unfold lin; rewrite Rmult_0_l, rnd_0, Rplus_0_l; apply rnd_fmt; exact Fa. Qed.
Lemma lin_below a b m i : fmt a -> fmt b -> / 2 ^ 900 <= b - a -> (1 <= m <= 2 ^ 49)%Z -> (0 <= i < m)%Z -> lin a b m i <= b.
Proof.
  intros Fa Fb HD Hm Hi; assert (G0 : 0 < / 2 ^ 900) by (apply Rinv_0_lt_compat, pow_lt; lra).
  assert (M1 : 1 <= IZR m) by (apply IZR_le; lia).
  pose proof ulp64_small as Hu; pose proof eta64_pos as He.
  pose proof (m_ulp m Hm) as MU.
  assert (MU' : 12 * ulp64 * IZR m <= 1) by (assert (12 * ulp64 * IZR m <= 1 / IZR m * IZR m) by (apply Rmult_le_compat_r; lra); unfold Rdiv in *; rewrite Rmult_1_l, Rinv_l in * by lra; lra).
  destruct (Z.eq_dec i 0) as [->|Ni]; [rewrite lin_0 by exact Fa; lra|].
  assert (I1 : 1 <= IZR i) by (apply IZR_le; lia).
  assert (I2 : IZR i <= IZR m - 1) by (rewrite <- minus_IZR; apply IZR_le; lia).
  unfold lin; destruct (rnd_sub_err b a Fb Fa) as (e1 & He1 & ->); apply Rabs_le_inv in He1.
  set (D := b - a) in *; set (d := D * (1 + e1)).
  assert (Dd : D * (999/1000) <= d <= D * (1 + ulp64)) by (unfold d; split; apply Rmult_le_compat_l; lra).
  assert (im : 0 < / IZR m <= 1) by (split; [apply Rinv_0_lt_compat; lra|rewrite <- Rinv_1; apply Rinv_le_contravar; lra]).
  assert (dm : eta64 <= ulp64 * (d / IZR m) /\ 0 < d / IZR m).
  { assert (A : / 2 ^ 960 <= d / IZR m).
    { assert (M50 : IZR m <= 2 ^ 49) by (rewrite pow_IZR; apply IZR_le; cbn [Z.of_nat]; lia).
      apply Rmult_le_reg_r with (IZR m); [lra|]; unfold Rdiv; rewrite Rmult_assoc, Rinv_l, Rmult_1_r by lra.
      apply Rle_trans with (/ 2 ^ 960 * 2 ^ 49); [apply Rmult_le_compat_l; [left; apply Rinv_0_lt_compat, pow_lt; lra|exact M50]|].
      apply Rle_trans with (/ 2 ^ 900 * (999/1000)); [|lra].
      replace (2 ^ 960) with (2 ^ 900 * (2 ^ 11 * 2 ^ 49)) by (rewrite <- !pow_add; reflexivity).
      assert (0 < 2 ^ 900) by (apply pow_lt; lra); assert (0 < 2 ^ 49) by (apply pow_lt; lra).
      replace (/ (2 ^ 900 * (2 ^ 11 * 2 ^ 49)) * 2 ^ 49) with (/ 2 ^ 900 * / 2 ^ 11) by (field; split; lra).
      apply Rmult_le_compat_l; [lra|]; replace (2 ^ 11) with 2048 by (cbn; lra); lra. }
    assert (Q : eta64 <= ulp64 * / 2 ^ 960).
    { rewrite <- tiny_eta; unfold tiny64, ulp64; rewrite <- Rinv_mult, <- pow_add; apply Rinv_le_contravar; [apply pow_lt; lra|apply Rle_pow; [lra|lia]]. }
    assert (0 < / 2 ^ 960) by (apply Rinv_0_lt_compat, pow_lt; lra).
    split; [|lra]; apply Rle_trans with (1 := Q), Rmult_le_compat_l; lra. }
  destruct dm as (dm & dp).
  destruct (rnd_err (d / IZR m)) as (e2 & h2 & He2 & Hh2 & X2); apply Rabs_le_inv in He2; apply Rabs_le_inv in Hh2.
  set (s := rnd (d / IZR m)) in *; set (w := d / IZR m) in *.
  assert (SB : w * (998/1000) <= s <= w * (1 + 2 * ulp64)) by (assert (- ulp64 * w <= e2 * w <= ulp64 * w) by (split; apply Rmult_le_compat_r; lra); rewrite X2; assert (ulp64 * w <= / 1000 * w) by (apply Rmult_le_compat_r; lra); lra).
  destruct (rnd_err (IZR i * s)) as (e3 & h3 & He3 & Hh3 & X3); apply Rabs_le_inv in He3; apply Rabs_le_inv in Hh3.
  assert (IS : w * (998/1000) <= IZR i * s) by (assert (1 * s <= IZR i * s) by (apply Rmult_le_compat_r; lra); lra).
  assert (XB : rnd (IZR i * s) <= IZR i * s * (1 + 3 * ulp64)).
  { rewrite X3; assert (IZR i * s * e3 <= IZR i * s * ulp64) by (apply Rmult_le_compat_l; lra).
    assert (ulp64 * w <= 2 * (ulp64 * (IZR i * s))) by (assert (ulp64 * (w * (998/1000)) <= ulp64 * (IZR i * s)) by (apply Rmult_le_compat_l; lra); assert (0 <= ulp64 * w) by (apply Rmult_le_pos; lra); lra).
    lra. }
  assert (IS2 : IZR i * s <= (IZR m - 1) * (w * (1 + 2 * ulp64))) by (apply Rmult_le_compat; lra).
  assert (WD : w <= D * (1 + ulp64) * / IZR m) by (unfold w, Rdiv; apply Rmult_le_compat_r; lra).
  assert (K : (1 + ulp64) * (1 + 2 * ulp64) * (1 + 3 * ulp64) <= 1 + 7 * ulp64) by (assert (ulp64 * ulp64 <= / 1000 * ulp64) by (apply Rmult_le_compat_r; lra); assert (ulp64 * ulp64 * ulp64 <= / 1000 * ulp64 * ulp64) by (apply Rmult_le_compat_r; [lra|apply Rmult_le_compat_r; lra]); lra).
  assert (XD : rnd (IZR i * s) <= D).
  { apply Rle_trans with (1 := XB).
    apply Rle_trans with ((IZR m - 1) * (w * (1 + 2 * ulp64)) * (1 + 3 * ulp64)); [apply Rmult_le_compat_r; lra|].
    apply Rle_trans with ((IZR m - 1) * (D * (1 + ulp64) * / IZR m * (1 + 2 * ulp64)) * (1 + 3 * ulp64)).
    { apply Rmult_le_compat_r; [lra|]; apply Rmult_le_compat_l; [lra|]; apply Rmult_le_compat_r; lra. }
    replace ((IZR m - 1) * (D * (1 + ulp64) * / IZR m * (1 + 2 * ulp64)) * (1 + 3 * ulp64))
      with (D * ((IZR m - 1) * / IZR m * ((1 + ulp64) * (1 + 2 * ulp64) * (1 + 3 * ulp64)))) by ring.
    rewrite <- (Rmult_1_r D) at 2; apply Rmult_le_compat_l; [lra|].
    apply Rle_trans with ((IZR m - 1) * / IZR m * (1 + 7 * ulp64)); [apply Rmult_le_compat_l; [apply Rmult_le_pos; lra|exact K]|].
    apply Rmult_le_reg_r with (IZR m); [lra|].
    replace ((IZR m - 1) * / IZR m * (1 + 7 * ulp64) * IZR m) with ((IZR m - 1) * (1 + 7 * ulp64)) by (field; lra); lra. }
  rewrite <- (rnd_fmt b Fb); apply rnd_le; unfold D in XD; lra.
Qed.
Lemma lin_between a b m i j : fmt a -> fmt b -> / 2 ^ 900 <= b - a -> (1 <= m <= 2 ^ 49)%Z -> (0 <= i <= j)%Z -> (j <= m)%Z ->
  let f i := if (i =? m)%Z then b else lin a b m i in a <= f i <= f j /\ f j <= b.
Proof.
  intros Fa Fb HD Hm Hij Hj f; assert (G0 : 0 < / 2 ^ 900) by (apply Rinv_0_lt_compat, pow_lt; lra).
  assert (A : forall i, (0 <= i < m)%Z -> a <= lin a b m i <= b).
  { intros k Hk; split; [|apply lin_below; assumption]; rewrite <- (lin_0 a b m Fa) at 1; apply lin_up; [lra|lia|lia]. }
  unfold f; destruct (Z.eqb_spec j m), (Z.eqb_spec i m); try lia.
  - lra.
  - pose proof (A i ltac:(lia)); lra.
  - pose proof (A j ltac:(lia)); pose proof (A i ltac:(lia)); pose proof (lin_up a b m i j ltac:(lra) ltac:(lia) ltac:(lia)); lra.
Qed.
Lemma lin_step a b m : / 2 ^ 900 <= Rabs (b - a) -> (1 <= m <= 2 ^ 49)%Z -> rnd (rnd (b - a) / IZR m) <> 0.
Proof.
  intros HD Hm; assert (M1 : 1 <= IZR m) by (apply IZR_le; lia).
  assert (P : forall d, / 2 ^ 900 <= d -> 0 < rnd (rnd d / IZR m)).
  { intros d Hd; assert (E : / 2 ^ 900 = bpow radix2 (-900)) by (rewrite bpow_powerRZ; reflexivity).
    assert (A : bpow radix2 (-900) <= rnd d) by (rewrite <- (rnd_fmt (bpow radix2 (-900))) by (apply fmt_bpow; lia); apply rnd_le; rewrite <- E; exact Hd).
    apply Rlt_le_trans with (bpow radix2 (-949)); [apply bpow_gt_0|].
    rewrite <- (rnd_fmt (bpow radix2 (-949))) by (apply fmt_bpow; lia); apply rnd_le.
    apply Rmult_le_reg_r with (IZR m); [lra|]; unfold Rdiv; rewrite Rmult_assoc, Rinv_l, Rmult_1_r by lra.
    apply Rle_trans with (2 := A); change (-900)%Z with (-949 + 49)%Z; rewrite bpow_plus; apply Rmult_le_compat_l; [apply bpow_ge_0|].
    change (bpow radix2 49) with (IZR (2 ^ 49)); apply IZR_le; lia. }
  destruct (Rle_or_lt 0 (b - a)) as [L|L].
  - rewrite Rabs_right in HD by lra; pose proof (P _ HD); lra.
  - rewrite Rabs_left in HD by lra; pose proof (P _ HD) as Q; rewrite rnd_opp in Q; unfold Rdiv in Q.
    rewrite Ropp_mult_distr_l_reverse, rnd_opp in Q; unfold Rdiv; lra.
Qed.

Lemma linspace_b64 (a b : PrimFloat.float) m M : finite64 a -> finite64 b -> Rabs (value a) <= M -> Rabs (value b) <= M -> M <= 2 ^ 1000 ->
  (1 <= m <= 2 ^ 49)%Z -> exists f : Z -> PrimFloat.float,
  np_linspace (a : Binary64) (b : Binary64) (m + 1) = Ok (tab (Z.to_nat (m + 1)) f : list Binary64) /\
  value (f 0%Z) = value a /\ f m = b /\
  (value a = value b \/ / 2 ^ 900 <= Rabs (value b - value a) -> forall i j, (0 <= i <= j)%Z -> (j <= m)%Z ->
     value a <= value (f i) <= value (f j) /\ value (f j) <= value b \/ value b <= value (f j) <= value (f i) /\ value (f i) <= value a) /\
  forall i, (0 <= i <= m)%Z -> finite64 (f i) /\
    Rabs (value (f i) - (value a + IZR i / IZR m * (value b - value a))) <= 8 * ulp64 * M + 2 * ((IZR m + 2) * tiny64).
Proof.
  intros Fa Fb Ha Hb HM Hm; rewrite tiny_eta.
  pose proof (eta_m m Hm) as EM; pose proof eta64_pos as E0; assert (M1 : 1 <= IZR m) by (apply IZR_le; lia).
  assert (M0 : 0 <= ulp64 * M) by (apply Rmult_le_pos; [pose proof ulp64_pos; lra|pose proof (Rabs_pos (value a)); lra]).
  set (g := fun i : Z => if (((b - a) / (ofZ m : Binary64) =? (0%num : Binary64))%float)
    then ((ofZ i : Binary64) / (ofZ m : Binary64) * (b - a) + a)%float else ((ofZ i : Binary64) * ((b - a) / (ofZ m : Binary64)) + a)%float).
  assert (G : forall i, (0 <= i <= m)%Z -> finite64 (g i) /\ (i = 0%Z -> value (g i) = value a) /\
    Rabs (value (g i) - (value a + IZR i / IZR m * (value b - value a))) <= 8 * ulp64 * M + 2 * ((IZR m + 2) * eta64) /\
    (/ 2 ^ 900 <= Rabs (value b - value a) -> value (g i) = lin (value a) (value b) m i) /\ (value a = value b -> value (g i) = value a)).
  { intros i Hi; unfold g; destruct (step_first a b i m M Fa Fb Ha Hb HM Hi Hm) as (F & Z0 & B & Fs & Vs & VX).
    assert (ES : value a = value b -> value ((b - a) / (ofZ m : Binary64))%float = 0).
    { intros E; rewrite Vs, E, Rminus_diag_eq by reflexivity; unfold Rdiv; rewrite rnd_0, Rmult_0_l; apply rnd_0. }
    rewrite (eqb64 _ _ Fs finite_0), value_0; destruct (Req_bool_spec (value ((b - a) / (ofZ m : Binary64))%float) 0) as [E0'|E0'].
    - clear F Z0 B VX; destruct (ratio_first a b i m M Fa Fb Ha Hb HM Hi Hm) as (F & Z0 & B & VX).
      assert (0 <= eta64 <= 1) by (assert (3 * eta64 <= (IZR m + 2) * eta64) by (apply Rmult_le_compat_r; lra); lra).
      destruct (lerp_sum a b i m M Fa Ha Hb HM Hi Hm _ _ F ltac:(eassumption) B Z0) as ((F1 & V1 & Z1 & B1) & _).
      split; [exact F1|]; split; [exact Z1|]; split; [eapply Rle_trans; [exact B1|]; assert (3 * eta64 <= (IZR m + 2) * eta64) by (apply Rmult_le_compat_r; lra); lra|].
      split; [intros L; exfalso; rewrite Vs in E0'; exact (lin_step _ _ _ L Hm E0')|].
      intros E; rewrite V1, (VX E), Rplus_0_l; apply rnd_fmt, value_fmt.
    - destruct (lerp_sum a b i m M Fa Ha Hb HM Hi Hm _ _ F EM B Z0) as ((F1 & V1 & Z1 & B1) & _).
      split; [exact F1|]; split; [exact Z1|]; split; [exact B1|]; split; [intros _; rewrite V1, VX; reflexivity|].
      intros E; contradiction (E0' (ES E)). }
  exists (fun i => if (i =? m)%Z then b else g i); split; [|split; [|split; [|split]]].
  - unfold np_linspace; destruct (Z.ltb_spec (m + 1) 0); [lia|]; cbn zeta.
    replace (m + 1 - 1)%Z with m by lia; destruct (Z.ltb_spec 0 m); [|lia].
    assert (EZ : zrange 0 (m + 1) = tab (Z.to_nat (m + 1)) (fun i => i)) by (rewrite <- zrange_tab, Z2Nat.id by lia; reflexivity).
    rewrite EZ, !map_tab.
    match goal with |- aset ?y _ _ = _ => replace y with (tab (Z.to_nat (m + 1)) g : list Binary64) end.
    2:{ match goal with |- _ = if ?c then _ else _ => change c with ((b - a) / (ofZ m : Binary64) =? (0%num : Binary64))%float end.
        unfold g; destruct ((b - a) / (ofZ m : Binary64) =? (0%num : Binary64))%float; reflexivity. }
    rewrite aset_tab_neg by lia; apply (f_equal Ok); apply tab_ext; intros i Hi; unfold fupd.
    destruct (Z.eqb_spec i (Z.of_nat (Z.to_nat (m + 1)) + -1)); destruct (Z.eqb_spec i m); try lia; reflexivity.
  - destruct (Z.eqb_spec 0 m); [lia|]; exact (proj1 (proj2 (G 0%Z ltac:(lia))) eq_refl).
  - rewrite Z.eqb_refl; reflexivity.
  - intros HD i j Hij Hj.
    assert (W : forall f : Z -> R, (forall i, f i = if (i =? m)%Z then value b else value (g i)) ->
      value a <= f i <= f j /\ f j <= value b \/ value b <= f j <= f i /\ f i <= value a).
    { intros f Ef; rewrite !Ef; clear f Ef.
      destruct HD as [E|HD].
      { left; assert (V : forall i, (0 <= i <= m)%Z -> (if (i =? m)%Z then value b else value (g i)) = value a)
          by (intros k Hk; destruct (k =? m)%Z; [symmetry; exact E|apply G; [exact Hk|exact E]]).
        rewrite !V by lia; lra. }
      assert (V : forall i, (0 <= i <= m)%Z -> (if (i =? m)%Z then value b else value (g i)) = (if (i =? m)%Z then value b else lin (value a) (value b) m i))
        by (intros k Hk; destruct (k =? m)%Z; [reflexivity|apply G; [exact Hk|exact HD]]).
      rewrite !V by lia; destruct (Rle_or_lt (value a) (value b)) as [L|L].
      - left; apply lin_between; try assumption; try apply value_fmt; rewrite Rabs_right in HD by lra; exact HD.
      - right; pose proof (lin_between (- value a) (- value b) m i j (generic_format_opp _ _ _ (value_fmt a)) (generic_format_opp _ _ _ (value_fmt b))
          ltac:(rewrite Rabs_left in HD by lra; lra) Hm Hij Hj) as A.
        cbv beta zeta in A; rewrite !lin_opp in A; destruct (i =? m)%Z, (j =? m)%Z; lra. }
    apply (W (fun i => value (if (i =? m)%Z then b else g i))); intros k; destruct (k =? m)%Z; reflexivity.
  - intros i Hi; destruct (Z.eqb_spec i m) as [->|]; [|split; [apply (G i Hi)|apply (G i Hi)]].
    split; [exact Fb|]; replace (value b - (value a + IZR m / IZR m * (value b - value a))) with 0 by (field; lra); rewrite Rabs_R0; lra.
Qed.

