(** Binary64 arithmetic through Flocq: rounding and its errors. *)
From Coq Require Import Reals Lra Lia ZArith List Floats.
From Flocq Require Import Core.Core IEEE754.BinarySingleNaN IEEE754.PrimFloat Relative Plus_error.
From Verif Require Import SpecB64.
Open Scope R_scope.

Notation rnd := (round radix2 (FLT_exp (-1074) 53) ZnearestE).
Notation fmt := (generic_format radix2 (FLT_exp (-1074) 53)).
Definition eta64 : R := bpow radix2 (-1075).
Lemma fexp_FLT : fexp prec emax = FLT_exp (-1074) 53.
Proof. reflexivity. Qed.

Global Instance prec53 : Prec_gt_0 53.
Proof. reflexivity. Qed.
Global Instance FLT64 : Valid_exp (FLT_exp (-1074) 53).
Proof. apply FLT_exp_valid; reflexivity. Qed.

Lemma finite_B x : finite64 x <-> is_finite (Prim2B x) = true.
Proof.
  unfold finite64; rewrite <- B2SF_Prim2B; destruct (Prim2B x); cbn; intuition congruence.
Qed.
Lemma value_B x : value x = B2R (Prim2B x).
Proof.
  unfold value; rewrite <- B2SF_Prim2B; destruct (Prim2B x) as [s|s| |s m e H]; cbn; try reflexivity.
  unfold F2R; cbn [Fnum Fexp]; rewrite bpow_powerRZ; cbn [cond_Zopp].
  destruct s; cbn [cond_Zopp]; [|reflexivity].
  change (Z.neg m) with (- Z.pos m)%Z; rewrite opp_IZR; reflexivity.
Qed.
Lemma value_fmt x : fmt (value x).
Proof. rewrite value_B; rewrite <- fexp_FLT; apply generic_format_B2R. Qed.


Lemma add64 x y : finite64 x -> finite64 y -> Rabs (rnd (value x + value y)) < bpow radix2 1024 ->
  finite64 (x + y) /\ value (x + y) = rnd (value x + value y).
Proof.
  rewrite !finite_B, !value_B, add_equiv; intros Fx Fy B.
  pose proof (Bplus_correct prec emax Hprec Hmax mode_NE _ _ Fx Fy) as H.
  rewrite fexp_FLT in H; cbn [round_mode] in H; rewrite Rlt_bool_true in H by exact B; tauto.
Qed.
Lemma sub64 x y : finite64 x -> finite64 y -> Rabs (rnd (value x - value y)) < bpow radix2 1024 ->
  finite64 (x - y) /\ value (x - y) = rnd (value x - value y).
Proof.
  rewrite !finite_B, !value_B, sub_equiv; intros Fx Fy B.
  pose proof (Bminus_correct prec emax Hprec Hmax mode_NE _ _ Fx Fy) as H.
  rewrite fexp_FLT in H; cbn [round_mode] in H; rewrite Rlt_bool_true in H by exact B; tauto.
Qed.
Lemma mul64 x y : finite64 x -> finite64 y -> Rabs (rnd (value x * value y)) < bpow radix2 1024 ->
  finite64 (x * y) /\ value (x * y) = rnd (value x * value y).
Proof.
  rewrite !finite_B, !value_B, mul_equiv; intros Fx Fy B.
  pose proof (Bmult_correct prec emax Hprec Hmax mode_NE (Prim2B x) (Prim2B y)) as H.
  rewrite fexp_FLT in H; cbn [round_mode] in H; rewrite Rlt_bool_true in H by exact B; rewrite Fx, Fy in H; tauto.
Qed.
Lemma div64 x y : finite64 x -> finite64 y -> value y <> 0 ->
  Rabs (rnd (value x / value y)) < bpow radix2 1024 ->
  finite64 (x / y) /\ value (x / y) = rnd (value x / value y).
Proof.
  rewrite !finite_B, !value_B, div_equiv; intros Fx Fy Hy B.
  pose proof (Bdiv_correct prec emax Hprec Hmax mode_NE (Prim2B x) (Prim2B y) Hy) as H.
  rewrite fexp_FLT in H; cbn [round_mode] in H; rewrite Rlt_bool_true in H by exact B; rewrite Fx in H; tauto.
Qed.
Lemma opp64 x : finite64 x -> finite64 (- x) /\ value (- x) = - value x.
Proof.
  rewrite !finite_B, !value_B, opp_equiv; intros Fx; rewrite is_finite_Bopp, B2R_Bopp; auto.
Qed.
Lemma abs64 x : finite64 x -> finite64 (abs x) /\ value (abs x) = Rabs (value x).
Proof.
  rewrite !finite_B, !value_B, abs_equiv; intros Fx; rewrite is_finite_Babs, B2R_Babs; auto.
Qed.
Lemma ltb64 x y : finite64 x -> finite64 y -> (x <? y)%float = Rlt_bool (value x) (value y).
Proof. rewrite !finite_B, !value_B, ltb_equiv; apply Bltb_correct. Qed.
Lemma leb64 x y : finite64 x -> finite64 y -> (x <=? y)%float = Rle_bool (value x) (value y).
Proof. rewrite !finite_B, !value_B, leb_equiv; apply Bleb_correct. Qed.
Lemma eqb64 x y : finite64 x -> finite64 y -> (x =? y)%float = Req_bool (value x) (value y).
Proof. rewrite !finite_B, !value_B, eqb_equiv; apply Beqb_correct. Qed.

(** ** Rounding *)
Lemma rnd_le x y : x <= y -> rnd x <= rnd y.
Proof. apply round_le; typeclasses eauto. Qed.
Lemma rnd_fmt x : fmt x -> rnd x = x.
Proof. apply round_generic; typeclasses eauto. Qed.
Lemma rnd_0 : rnd 0 = 0.
Proof. apply round_0; typeclasses eauto. Qed.
Lemma rnd_nonneg x : 0 <= x -> 0 <= rnd x.
Proof. intros H; rewrite <- rnd_0; apply rnd_le; exact H. Qed.
Lemma fmt_bpow e : (-1074 <= e)%Z -> fmt (bpow radix2 e).
Proof.
  intros H; apply generic_format_bpow'; [typeclasses eauto|]; unfold FLT_exp; lia.
Qed.
Lemma rnd_bound x e : (-1074 <= e)%Z -> Rabs x <= bpow radix2 e -> Rabs (rnd x) <= bpow radix2 e.
Proof.
  intros He H; apply abs_round_le_generic; [typeclasses eauto|typeclasses eauto|apply fmt_bpow; exact He|exact H].
Qed.
Lemma rnd_safe x e : (-1074 <= e < 1024)%Z -> Rabs x <= bpow radix2 e -> Rabs (rnd x) < bpow radix2 1024.
Proof.
  intros He H; apply Rle_lt_trans with (bpow radix2 e); [apply rnd_bound; [lia|exact H]|apply bpow_lt; lia].
Qed.
Lemma ulp64_bpow : ulp64 = bpow radix2 (-53).
Proof. unfold ulp64; rewrite bpow_powerRZ; cbn [powerRZ]; reflexivity. Qed.
Lemma ulp64_half : ulp64 = / 2 * bpow radix2 (- (53) + 1).
Proof.
  rewrite ulp64_bpow; change (- (53) + 1)%Z with (-53 + 1)%Z; rewrite bpow_plus; change (bpow radix2 1) with 2; lra.
Qed.
Lemma ulp64_pos : 0 < ulp64.
Proof. rewrite ulp64_bpow; apply bpow_gt_0. Qed.
Lemma eta64_pos : 0 < eta64.
Proof. apply bpow_gt_0. Qed.

Lemma rnd_err x : exists e h, Rabs e <= ulp64 /\ Rabs h <= eta64 /\ rnd x = x * (1 + e) + h.
Proof.
  destruct (error_N_FLT radix2 (-1074) 53 eq_refl (fun x => negb (Z.even x)) x) as (e & h & He & Hh & _ & E).
  exists e, h; split; [rewrite ulp64_half; exact He|split; [|exact E]].
  unfold eta64; replace (-1075)%Z with (-1 + -1074)%Z by lia; rewrite bpow_plus.
  change (bpow radix2 (-1)) with (/ 2); exact Hh.
Qed.
Lemma rnd_add_err x y : fmt x -> fmt y -> exists e, Rabs e <= ulp64 /\ rnd (x + y) = (x + y) * (1 + e).
Proof.
  intros Fx Fy.
  destruct (FLT_plus_error_N_ex radix2 (-1074) 53 (fun x => negb (Z.even x)) x y Fx Fy) as (e & He & E).
  exists e; split; [|exact E].
  apply Rle_trans with (1 := He); unfold u_ro; rewrite <- ulp64_half.
  pose proof ulp64_pos; apply (Rmult_le_reg_r (1 + ulp64)); [lra|].
  unfold Rdiv; rewrite Rmult_assoc, Rinv_l by lra; nra.
Qed.
Lemma rnd_sub_err x y : fmt x -> fmt y -> exists e, Rabs e <= ulp64 /\ rnd (x - y) = (x - y) * (1 + e).
Proof. intros Fx Fy; apply (rnd_add_err x (- y)); [exact Fx|apply generic_format_opp; exact Fy]. Qed.
Lemma eta_ulp : eta64 * 2 ^ 100 <= ulp64.
Proof.
  rewrite ulp64_bpow; unfold eta64; replace (2 ^ 100) with (bpow radix2 100) by (rewrite bpow_powerRZ; reflexivity).
  rewrite <- bpow_plus; apply bpow_le; lia.
Qed.
