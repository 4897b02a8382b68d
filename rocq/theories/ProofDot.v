(** Dot products of doubles in any order, with or without fused multiply-adds:
    the rounding error. *)
From Coq Require Import Reals Lra Lia ZArith List Floats Permutation.
From Flocq Require Import Core.Core IEEE754.BinarySingleNaN IEEE754.PrimFloat.
From Verif Require Import Py PyLemmas Num Spec SpecB64 SpecDot ProofNum ProofBasis ProofCurve ProofB64 ProofB64Basis ProofB64Curve ProofB64Surface ProofB64Ders3.
Import ListNotations.
Open Scope R_scope.

(** ** Fused multiply-adds *)
(** There is a double with the value [rnd (xy + a)]. *)
Lemma fma_double x y a : finite64 x -> finite64 y -> finite64 a -> Rabs (value x * value y + value a) <= 2 ^ 1023 ->
  exists z, finite64 z /\ value z = rnd (value x * value y + value a).
Proof.
  intros Fx Fy Fa HB.
  assert (HR : Rabs (rnd (value x * value y + value a)) < bpow radix2 1024).
  { apply rnd_safe with 1023%Z; [lia|]; replace (bpow radix2 1023) with (2 ^ 1023) by (rewrite bpow_powerRZ; reflexivity); exact HB. }
  rewrite !finite_B in *; rewrite !value_B in *.
  pose proof (Bfma_correct prec emax Hprec Hmax mode_NE _ _ _ Fx Fy Fa) as H; cbv zeta in H.
  rewrite fexp_FLT in H; cbn [round_mode] in H; rewrite Rlt_bool_true in H by exact HR.
  destruct H as (H1 & H2 & _).
  exists (B2Prim (Bfma (prec_gt_0_ := Hprec) (prec_lt_emax_ := Hmax) mode_NE (Prim2B x) (Prim2B y) (Prim2B a))).
  rewrite finite_B, value_B, Prim2B_B2Prim; split; assumption.
Qed.
Lemma fused_err x y a r : finite64 x -> finite64 y -> finite64 a -> Rabs (value x * value y + value a) <= 2 ^ 1023 ->
  fused64 x y a r -> finite64 r /\
  Rabs (value r - (value x * value y + value a)) <= ulp64 * Rabs (value x * value y + value a) + eta64.
Proof.
  intros Fx Fy Fa HB HF; destruct (HF Fx Fy Fa HB) as (Fr & HN); split; [exact Fr|].
  destruct (fma_double x y a Fx Fy Fa HB) as (z & Fz & Vz).
  eapply Rle_trans; [apply HN; exact Fz|]; rewrite Vz.
  set (v := value x * value y + value a).
  destruct (rnd_err v) as (e & h & He & Hh & E); rewrite E.
  replace (v * (1 + e) + h - v) with (v * e + h) by ring.
  eapply Rle_trans; [apply Rabs_triang|]; apply Rplus_le_compat; [|exact Hh].
  rewrite Rabs_mult, Rmult_comm; apply Rmult_le_compat_r; [apply Rabs_pos|exact He].
Qed.

(** ** Sums of products *)
Definition psum (l : list (PrimFloat.float * PrimFloat.float)) : R :=
  fold_right Rplus 0 (map (fun xy => value (fst xy) * value (snd xy)) l).
Definition pabs (l : list (PrimFloat.float * PrimFloat.float)) : R :=
  fold_right Rplus 0 (map (fun xy => Rabs (value (fst xy) * value (snd xy))) l).
Definition pfin (xy : PrimFloat.float * PrimFloat.float) : Prop := finite64 (fst xy) /\ finite64 (snd xy).

Lemma foldR_app l m : fold_right Rplus 0 (l ++ m) = fold_right Rplus 0 l + fold_right Rplus 0 m.
Proof. induction l as [|x l IH]; cbn; [lra|rewrite IH; lra]. Qed.
Lemma foldR_perm l m : Permutation l m -> fold_right Rplus 0 l = fold_right Rplus 0 m.
Proof. induction 1; cbn; lra. Qed.
Lemma psum_app l m : psum (l ++ m) = psum l + psum m.
Proof. unfold psum; rewrite map_app; apply foldR_app. Qed.
Lemma pabs_app l m : pabs (l ++ m) = pabs l + pabs m.
Proof. unfold pabs; rewrite map_app; apply foldR_app. Qed.
Lemma pabs_nonneg l : 0 <= pabs l.
Proof. induction l as [|x l IH]; unfold pabs in *; cbn; [lra|]; pose proof (Rabs_pos (value (fst x) * value (snd x))); lra. Qed.
Lemma psum_abs l : Rabs (psum l) <= pabs l.
Proof.
  induction l as [|x l IH]; unfold psum, pabs in *; cbn; [rewrite Rabs_R0; lra|].
  eapply Rle_trans; [apply Rabs_triang|]; lra.
Qed.
Lemma psum_perm l m : Permutation l m -> psum l = psum m.
Proof. intros H; apply foldR_perm, Permutation_map; exact H. Qed.
Lemma pabs_perm l m : Permutation l m -> pabs l = pabs m.
Proof. intros H; apply foldR_perm, Permutation_map; exact H. Qed.

Lemma grow_mono m n : (m <= n)%nat -> grow m <= grow n.
Proof. intros H; pose proof ulp64_pos; unfold grow; apply Rplus_le_compat_r, Rle_pow; [lra|exact H]. Qed.
Definition slack (n : nat) (A : R) : R := grow n * A + INR n * (1 + grow n) * eta64.
(** A sum of two parts, then one rounding. *)
Lemma slack_S m n k A : (m <= k)%nat -> (n <= k)%nat -> 0 <= A -> 
  forall B, 0 <= B -> (1 + ulp64) * (slack m A + slack n B) + ulp64 * (A + B) <=
    grow (S k) * (A + B) + INR (m + n) * (1 + grow (S k)) * eta64.
Proof.
  intros Hm Hn HA B HB; pose proof ulp64_pos as Hu; pose proof eta64_pos as He.
  pose proof (grow_mono m k Hm) as G1; pose proof (grow_mono n k Hn) as G2.
  pose proof (grow_nonneg m) as M0; pose proof (grow_nonneg n) as N0; pose proof (grow_nonneg k) as K0.
  pose proof (pos_INR m) as I1; pose proof (pos_INR n) as I2.
  assert (S1 : slack m A <= grow k * A + INR m * (1 + grow k) * eta64).
  { unfold slack; apply Rplus_le_compat; [apply Rmult_le_compat_r; assumption|].
    apply Rmult_le_compat_r; [lra|]; apply Rmult_le_compat_l; lra. }
  assert (S2 : slack n B <= grow k * B + INR n * (1 + grow k) * eta64).
  { unfold slack; apply Rplus_le_compat; [apply Rmult_le_compat_r; assumption|].
    apply Rmult_le_compat_r; [lra|]; apply Rmult_le_compat_l; lra. }
  rewrite grow_S, plus_INR.
  eapply Rle_trans; [apply Rplus_le_compat_r, Rmult_le_compat_l; [lra|]; apply Rplus_le_compat; [exact S1|exact S2]|].
  right; ring.
Qed.

Lemma dotted_err l r : dotted64 l r -> Forall pfin l -> INR (length l) <= 2 ^ 41 -> pabs l <= 2 ^ 990 ->
  finite64 r /\ Rabs (value r - psum l) <= slack (length l) (pabs l).
Proof.
  pose proof ulp64_pos as Hu; pose proof ulp64_small as Hu2; pose proof eta64_pos as He.
  assert (Big : 4 * 2 ^ 990 + 4 <= 2 ^ 1023).
  { replace (2 ^ 1023) with (2 ^ 990 * 2 ^ 33) by (rewrite <- pow_add; reflexivity).
    assert (1 <= 2 ^ 990) by (apply pow_R1_Rle; lra); generalize dependent (2 ^ 990); clear; intros z H; cbn [pow]; lra. }
  assert (Small : forall n A, INR n <= 2 ^ 41 -> 0 <= A -> slack n A <= A + 1).
  { intros n A Hn HA; pose proof (grow_bound n Hn) as GB; pose proof (pos_INR n) as N0; pose proof (grow_nonneg n).
    assert (NU : INR n * ulp64 <= / 4096).
    { pose proof ulp64_tiny as Ht; apply Rle_trans with (2 ^ 41 * ulp64); [apply Rmult_le_compat_r; lra|].
      replace (2 ^ 53) with (2 ^ 41 * 4096) in Ht by (cbn [pow]; ring).
      apply Rmult_le_reg_r with 4096; [lra|]; rewrite Rinv_l by lra; lra. }
    assert (EU : eta64 <= ulp64).
    { pose proof eta_ulp as EU; assert (1 <= 2 ^ 100) by (apply pow_R1_Rle; lra).
      apply Rle_trans with (eta64 * 2 ^ 100); [|exact EU]; rewrite <- (Rmult_1_r eta64) at 1; apply Rmult_le_compat_l; lra. }
    unfold slack; apply Rplus_le_compat.
    - rewrite <- (Rmult_1_l A) at 2; apply Rmult_le_compat_r; lra.
    - apply Rle_trans with (2 * (INR n * ulp64)); [|lra].
      replace (INR n * (1 + grow n) * eta64) with ((1 + grow n) * (INR n * eta64)) by ring.
      apply Rmult_le_compat; [lra|apply Rmult_le_pos; lra|lra|apply Rmult_le_compat_l; assumption]. }
  induction 1 as [|x y|l1 l2 a b D1 IH1 D2 IH2|l x y a r D IH HF|l l' a HP D IH]; intros FL HN HA.
  - split; [exact finite_0|]; unfold psum, slack; cbn [map fold_right length INR].
    change (value 0%float) with (value (0%num : Binary64)); rewrite value_0, Rminus_0_r, Rabs_R0; unfold grow, pabs; cbn; lra.
  - inversion FL as [|? ? (Fx & Fy) _]; subst; cbn [fst snd] in *.
    unfold pabs in *; cbn [map fold_right fst snd] in HA |- *; rewrite Rplus_0_r in *.
    destruct (mul64 x y Fx Fy) as (Fm & Vm).
    { apply rnd_safe with 990%Z; [lia|]; rewrite p990; exact HA. }
    split; [exact Fm|]; unfold psum; cbn [map fold_right fst snd length]; rewrite Rplus_0_r, Vm.
    destruct (rnd_err (value x * value y)) as (e & h & Ee & Eh & Er); rewrite Er.
    replace (value x * value y * (1 + e) + h - value x * value y) with (value x * value y * e + h) by ring.
    eapply Rle_trans; [apply Rabs_triang|]; unfold slack; rewrite Rabs_mult.
    replace (grow 1) with ulp64 by (unfold grow; cbn [pow]; ring); cbn [INR].
    apply Rplus_le_compat; [rewrite Rmult_comm; apply Rmult_le_compat_r; [apply Rabs_pos|exact Ee]|].
    pose proof (Rmult_lt_0_compat _ _ Hu He); lra.
  - apply Forall_app in FL; destruct FL as (F1 & F2); rewrite app_length, plus_INR in HN; rewrite pabs_app in HA.
    pose proof (pabs_nonneg l1) as A1; pose proof (pabs_nonneg l2) as A2.
    pose proof (pos_INR (length l1)) as N1; pose proof (pos_INR (length l2)) as N2.
    destruct (IH1 F1 ltac:(lra) ltac:(lra)) as (Fa & Ea); destruct (IH2 F2 ltac:(lra) ltac:(lra)) as (Fb & Eb).
    pose proof (Small (length l1) (pabs l1) ltac:(lra) A1) as T1; pose proof (Small (length l2) (pabs l2) ltac:(lra) A2) as T2.
    pose proof (psum_abs l1) as P1; pose proof (psum_abs l2) as P2.
    assert (Ba : Rabs (value a) <= pabs l1 + slack (length l1) (pabs l1)).
    { replace (value a) with (psum l1 + (value a - psum l1)) by ring; eapply Rle_trans; [apply Rabs_triang|]; lra. }
    assert (Bb : Rabs (value b) <= pabs l2 + slack (length l2) (pabs l2)).
    { replace (value b) with (psum l2 + (value b - psum l2)) by ring; eapply Rle_trans; [apply Rabs_triang|]; lra. }
    destruct (add64 a b Fa Fb) as (Fs & Vs).
    { apply rnd_safe with 1023%Z; [lia|]; replace (bpow radix2 1023) with (2 ^ 1023) by (rewrite bpow_powerRZ; reflexivity).
      eapply Rle_trans; [apply Rabs_triang|]; lra. }
    split; [exact Fs|]; rewrite app_length, psum_app, pabs_app.
    assert (Z0 : forall l z, length l = 0%nat -> Rabs (value z - psum l) <= slack (length l) (pabs l) -> value z = 0 /\ l = []).
    { intros l z L0 B; destruct l; [|discriminate L0]; split; [|reflexivity].
      unfold psum, slack, grow, pabs in B; cbn in B; rewrite Rminus_0_r in B.
      replace ((1 - 1) * 0 + 0 * (1 + (1 - 1)) * eta64) with 0 in B by ring.
      pose proof (Rabs_pos (value z)); destruct (Req_dec (value z) 0) as [E|E]; [exact E|]; apply Rabs_pos_lt in E; lra. }
    destruct (Nat.eq_dec (length l1) 0) as [L1|L1].
    { destruct (Z0 l1 a L1 Ea) as (Va & ->); rewrite Vs, Va, Rplus_0_l, (rnd_fmt _ (value_fmt b)).
      cbn [length plus]; replace (psum []) with 0 by reflexivity; replace (pabs []) with 0 by reflexivity.
      rewrite !Rplus_0_l; exact Eb. }
    destruct (Nat.eq_dec (length l2) 0) as [L2|L2].
    { destruct (Z0 l2 b L2 Eb) as (Vb & ->); rewrite Vs, Vb, Rplus_0_r, (rnd_fmt _ (value_fmt a)).
      cbn [length]; rewrite Nat.add_0_r; replace (psum []) with 0 by reflexivity; replace (pabs []) with 0 by reflexivity.
      rewrite !Rplus_0_r; exact Ea. }
    destruct (rnd_add_err (value a) (value b) (value_fmt a) (value_fmt b)) as (d & Hd & Ed); rewrite Vs, Ed.
    set (k := Nat.pred (length l1 + length l2)).
    pose proof (slack_S (length l1) (length l2) k (pabs l1) ltac:(unfold k; lia) ltac:(unfold k; lia) A1 (pabs l2) A2) as SS.
    replace (S k) with (length l1 + length l2)%nat in SS by (unfold k; lia).
    unfold slack at 1; eapply Rle_trans; [|exact SS].
    replace ((value a + value b) * (1 + d) - (psum l1 + psum l2))
      with ((value a - psum l1) + ((value b - psum l2) + (value a * d + value b * d))) by ring.
    assert (Rabs (value a * d) <= (pabs l1 + slack (length l1) (pabs l1)) * ulp64).
    { rewrite Rabs_mult; apply Rmult_le_compat; try assumption; apply Rabs_pos. }
    assert (Rabs (value b * d) <= (pabs l2 + slack (length l2) (pabs l2)) * ulp64).
    { rewrite Rabs_mult; apply Rmult_le_compat; try assumption; apply Rabs_pos. }
    eapply Rle_trans; [apply Rabs_triang|].
    pose proof (Rabs_triang (value b - psum l2) (value a * d + value b * d)).
    pose proof (Rabs_triang (value a * d) (value b * d)). lra.
  - inversion FL as [|? ? (Fx & Fy) F1]; subst; cbn [fst snd] in *; cbn [length] in HN |- *; rewrite S_INR in HN.
    assert (EA : pabs ((x, y) :: l) = pabs l + Rabs (value x * value y)) by (unfold pabs; cbn [map fold_right fst snd]; ring).
    assert (EP : psum ((x, y) :: l) = psum l + value x * value y) by (unfold psum; cbn [map fold_right fst snd]; ring).
    rewrite EA in HA |- *; rewrite EP.
    pose proof (pabs_nonneg l) as A1; pose proof (pos_INR (length l)) as N1; pose proof (Rabs_pos (value x * value y)) as X0.
    destruct (IH F1 ltac:(lra) ltac:(lra)) as (Fa & Ea).
    pose proof (Small (length l) (pabs l) ltac:(lra) A1) as T1; pose proof (psum_abs l) as P1.
    assert (Ba : Rabs (value a) <= pabs l + slack (length l) (pabs l)).
    { replace (value a) with (psum l + (value a - psum l)) by ring; eapply Rle_trans; [apply Rabs_triang|]; lra. }
    assert (BV : Rabs (value x * value y + value a) <= Rabs (value x * value y) + pabs l + slack (length l) (pabs l)).
    { eapply Rle_trans; [apply Rabs_triang|]; lra. }
    destruct (fused_err x y a r Fx Fy Fa ltac:(lra) HF) as (Fr & Er); split; [exact Fr|].
    pose proof (slack_S (length l) 0 (length l) (pabs l) (Nat.le_refl _) ltac:(lia) A1 (Rabs (value x * value y)) X0) as SS.
    assert (E0 : slack 0 (Rabs (value x * value y)) = 0) by (unfold slack, grow; cbn; ring); rewrite E0, Rplus_0_r, Nat.add_0_r in SS.
    unfold slack at 1; rewrite S_INR.
    pose proof (grow_nonneg (S (length l))) as G0; pose proof (Rmult_le_pos _ _ G0 (Rlt_le _ _ He)) as GE.
    apply Rle_trans with (grow (S (length l)) * (pabs l + Rabs (value x * value y)) + INR (length l) * (1 + grow (S (length l))) * eta64 + eta64); [|lra].
    eapply Rle_trans; [|apply Rplus_le_compat_r; exact SS].
    replace (value r - (psum l + value x * value y)) with ((value r - (value x * value y + value a)) + (value a - psum l)) by ring.
    eapply Rle_trans; [apply Rabs_triang|].
    assert (ulp64 * Rabs (value x * value y + value a) <= ulp64 * (Rabs (value x * value y) + pabs l + slack (length l) (pabs l)))
      by (apply Rmult_le_compat_l; lra).
    lra.
  - rewrite <- (Permutation_length HP), <- (psum_perm _ _ HP), <- (pabs_perm _ _ HP) in *; apply IH; try assumption.
    rewrite Forall_forall in *; intros z Hz; apply FL; eapply Permutation_in; eassumption.
Qed.

(** ** Dot products with approximate weights *)
Lemma psum_rdot a b : psum (combine a b) = rdot (values a) (values b).
Proof.
  unfold psum, rdot, values; revert b; induction a as [|x a IH]; intros [|y b]; try reflexivity.
  cbn [combine map fold_right fst snd]; rewrite IH; reflexivity.
Qed.
Lemma pabs_bound M a b : 0 <= M -> within (- M) M b -> length a = length b -> pabs (combine a b) <= sumabs (values a) * M.
Proof.
  intros HM; unfold pabs, sumabs, values; revert b; induction a as [|x a IH]; intros [|y b] HB L; try discriminate L.
  - cbn; lra.
  - inversion HB as [|? ? (_ & Hy) HB']; subst; injection L as L; specialize (IH b HB' L).
    cbn [combine map fold_right fst snd]; rewrite Rmult_plus_distr_r, Rabs_mult; apply Rplus_le_compat; [|exact IH].
    apply Rmult_le_compat_l; [apply Rabs_pos|apply Rabs_le; exact Hy].
Qed.
Lemma pfin_combine M a b : Forall finite64 a -> within (- M) M b -> Forall pfin (combine a b).
Proof.
  intros Fa; revert b; induction Fa as [|x a Fx Fa IH]; intros [|y b] Fb; try constructor.
  - inversion Fb as [|? ? (Fy & _) _]; subst; split; assumption.
  - inversion Fb; subst; apply IH; assumption.
Qed.

Lemma dotted_signed M W k (a b : list PrimFloat.float) w r : dotted64 (combine a b) r ->
  0 <= M -> INR (length a) <= 2 ^ 41 -> Forall finite64 a ->
  within (- M) M b -> length a = length b -> length a = length w -> sumabs w <= W -> error1 (values a) w <= k * ulp64 * W ->
  0 <= k <= 2 ^ 44 -> W * M <= 2 ^ 980 ->
  finite64 r /\
  Rabs (value r - rdot w (values b)) <= (k + 2 * INR (length a) + 2) * (ulp64 * (W * M)) + 2 * INR (length a) * eta64.
Proof.
  intros HD HM HN Fa Fb L1 L2 HWs HE Hk HWM.
  pose proof ulp64_pos as Hu; pose proof ulp64_tiny as Ht; pose proof eta64_pos as He.
  assert (KU : k * ulp64 <= / 512).
  { apply Rle_trans with (2 ^ 44 * ulp64); [apply Rmult_le_compat_r; lra|].
    replace (2 ^ 53) with (2 ^ 44 * 512) in Ht by (cbn [pow]; ring).
    apply Rmult_le_reg_r with 512; [lra|]; rewrite Rinv_l by lra; lra. }
  assert (LC : length (combine a b) = length a) by (rewrite combine_length; lia).
  set (n := length a) in *.
  assert (NU : INR n * ulp64 <= / 4096).
  { apply Rle_trans with (2 ^ 41 * ulp64); [apply Rmult_le_compat_r; lra|].
    replace (2 ^ 53) with (2 ^ 41 * 4096) in Ht by (cbn [pow]; ring).
    apply Rmult_le_reg_r with 4096; [lra|]; rewrite Rinv_l by lra; lra. }
  assert (L2' : length (values a) = length w) by (unfold values; rewrite map_length; exact L2).
  pose proof (sumabs_nonneg w) as W0.
  assert (WA : sumabs (values a) <= 513 / 512 * W).
  { apply Rle_trans with (1 := sumabs_error _ _ L2').
    assert (k * ulp64 * W <= / 512 * W) by (apply Rmult_le_compat_r; lra); lra. }
  pose proof (pabs_bound M a b HM Fb L1) as PB; pose proof (pabs_nonneg (combine a b)) as PA0.
  assert (WaM : pabs (combine a b) <= 513 / 512 * (W * M)).
  { eapply Rle_trans; [exact PB|]; rewrite <- Rmult_assoc; apply Rmult_le_compat_r; lra. }
  assert (WM0 : 0 <= W * M) by (apply Rmult_le_pos; lra).
  assert (P1 : 4 * 2 ^ 980 <= 2 ^ 990 /\ 1 <= 2 ^ 980).
  { replace (2 ^ 990) with (2 ^ 980 * 2 ^ 10) by (rewrite <- pow_add; reflexivity).
    assert (1 <= 2 ^ 980) by (apply pow_R1_Rle; lra); generalize dependent (2 ^ 980); clear; intros z _ H; cbn [pow]; lra. }
  destruct (dotted_err _ r HD (pfin_combine M a b Fa Fb)) as (F & E); [rewrite LC; exact HN|lra|].
  split; [exact F|]; rewrite LC, psum_rdot in E.
  assert (HB : Forall (fun y => Rabs y <= M) (values b)).
  { unfold values; apply Forall_map; eapply Forall_impl; [|exact Fb]; intros y (_ & Y); apply Rabs_le; exact Y. }
  assert (E3 : Rabs (rdot (values a) (values b) - rdot w (values b)) <= k * ulp64 * W * M).
  { eapply Rle_trans; [apply rdot_error; [exact L2'|unfold values; rewrite !map_length; exact L1|exact HB]|].
    apply Rmult_le_compat_r; lra. }
  replace (value r - rdot w (values b)) with ((value r - rdot (values a) (values b)) + (rdot (values a) (values b) - rdot w (values b))) by ring.
  eapply Rle_trans; [apply Rabs_triang|].
  pose proof (grow_bound n HN) as GB; pose proof (grow_nonneg n) as G0; pose proof (pos_INR n) as N0.
  assert (NE0 : 0 <= INR n * eta64) by (apply Rmult_le_pos; lra).
  assert (UM0 : 0 <= ulp64 * (W * M)) by (apply Rmult_le_pos; lra).
  assert (NUM : 0 <= INR n * (ulp64 * (W * M))) by (apply Rmult_le_pos; lra).
  assert (E1 : grow n * pabs (combine a b) <= 11 / 10 * INR n * ulp64 * (513 / 512 * (W * M))).
  { apply Rmult_le_compat; assumption. }
  assert (E2 : INR n * (1 + grow n) * eta64 <= 2 * (INR n * eta64)).
  { replace (INR n * (1 + grow n) * eta64) with ((1 + grow n) * (INR n * eta64)) by ring; apply Rmult_le_compat_r; [exact NE0|lra]. }
  unfold slack in E.
  replace (11 / 10 * INR n * ulp64 * (513 / 512 * (W * M))) with (5643 / 5120 * (INR n * (ulp64 * (W * M)))) in E1 by field.
  replace ((k + 2 * INR n + 2) * (ulp64 * (W * M)) + 2 * INR n * eta64) with
    (k * ulp64 * W * M + 2 * (INR n * (ulp64 * (W * M))) + 2 * (ulp64 * (W * M)) + 2 * (INR n * eta64)) by ring.
  lra.
Qed.
Lemma sumabs_pos l : Forall (Rle 0) l -> sumabs l = sumR l.
Proof.
  unfold sumabs, sumR; induction 1 as [|x l Hx HF IH]; cbn; [reflexivity|]; rewrite IH, Rabs_right by lra; reflexivity.
Qed.
(** Weighted means. *)
Lemma dotted_mean M (a b : list PrimFloat.float) w k r : dotted64 (combine a b) r ->
  0 <= M <= 2 ^ 900 -> INR (length a) <= 2 ^ 41 ->
  Forall (fun x => finite64 x /\ 0 <= value x) a -> within (- M) M b -> length a = length b -> length a = length w ->
  Forall (Rle 0) w -> sumR w = 1 -> error1 (values a) w <= k * ulp64 -> 0 <= k <= 2 ^ 44 ->
  finite64 r /\ Rabs (value r - rdot w (values b)) <= (2 * INR (length a) + k + 2) * (ulp64 * M + eta64).
Proof.
  intros HD HM HN Fa Fb L1 L2 W0 HW HE Hk.
  assert (P : 2 ^ 900 <= 2 ^ 980) by (apply Rle_pow; [lra|lia]).
  destruct (dotted_signed M 1 k a b w r HD) as (F & E); try assumption.
  - lra.
  - eapply Forall_impl; [|exact Fa]; intros x (Fx & _); exact Fx.
  - rewrite (sumabs_pos w W0), HW; lra.
  - rewrite Rmult_1_r; exact HE.
  - rewrite Rmult_1_l; lra.
  - split; [exact F|]; eapply Rle_trans; [exact E|]; rewrite Rmult_1_l.
    pose proof eta64_pos as He; pose proof (pos_INR (length a)).
    pose proof (Rmult_le_pos k eta64 ltac:(lra) ltac:(lra)).
    replace ((2 * INR (length a) + k + 2) * (ulp64 * M + eta64)) with
      ((k + 2 * INR (length a) + 2) * (ulp64 * M) + 2 * INR (length a) * eta64 + k * eta64 + 2 * eta64) by ring.
    lra.
Qed.
Lemma combine_swap {A B} (a : list A) (b : list B) : combine b a = map (fun p => (snd p, fst p)) (combine a b).
Proof. revert b; induction a as [|x a IH]; intros [|y b]; try reflexivity; cbn; rewrite IH; reflexivity. Qed.
Lemma dotted_swap l r : dotted64 l r -> dotted64 (map (fun p => (snd p, fst p)) l) r.
Proof.
  induction 1 as [|x y|l1 l2 a b D1 IH1 D2 IH2|l x y a r D IH HF|l l' a HP D IH]; cbn [map fst snd].
  - constructor.
  - rewrite mul64_comm; constructor.
  - rewrite map_app; constructor; assumption.
  - apply (dotted_fma _ _ _ a); [exact IH|]; unfold fused64 in *; rewrite (Rmult_comm (value y)); intros Fy Fx; apply HF; assumption.
  - eapply dotted_perm; [|exact IH]; apply Permutation_map; exact HP.
Qed.
