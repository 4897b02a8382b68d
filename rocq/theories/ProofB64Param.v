(** Sample parameters, initial guesses and ranges of point inversion
    (model: ModelParam.v) on binary64 numbers. *)
From Coq Require Import Reals Lra Lia ZArith List Floats.
From Flocq Require Import Core.Core IEEE754.BinarySingleNaN IEEE754.PrimFloat Relative.
From Verif Require Import Py PyLemmas Num ModelKnots ModelBasis ModelCurve ModelSurface ModelParam Spec SpecB64
  ProofNum ProofBasis ProofCurve ProofCurve2 ProofParam ProofParam3 ProofB64 ProofB64Basis ProofB64Span ProofB64Curve ProofB64Knots ProofB64Norm.
Import ListNotations.
Open Scope R_scope.

(** ** Sample parameters *)
Section Samples.
Variable m : Z.
Hypothesis Hm : (1 <= m <= 2 ^ 49)%Z.
Notation h := (value (step64 m)).
Definition sample64 (i : Z) : Binary64 := nmul (step64 m) (ofZ i).

(** The last product misses 1 by less than half a unit in the last place. *)
Lemma last_product : 1 - ulp64 < IZR m * h < 1 + ulp64.
Proof.
  pose proof (mR m Hm) as MR; pose proof ulp64_pos as Hu; pose proof ulp64_small as Hu2.
  assert (V : h = rnd (1 / IZR m)).
  { destruct (ofZ64 1 ltac:(lia)) as (F1 & V1); destruct (ofZ64 m ltac:(lia)) as (Fz & Vz).
    change (step64 m) with (PrimFloat.div (ofZ 1 : Binary64) (ofZ m : Binary64)).
    assert (Q : 0 < 1 / IZR m <= 1).
    { split; [apply Rdiv_lt_0_compat; lra|]; apply (Rmult_le_reg_r (IZR m)); [lra|].
      unfold Rdiv; rewrite Rmult_assoc, Rinv_l; lra. }
    destruct (div64 (ofZ 1 : Binary64) (ofZ m : Binary64) F1 Fz) as (F & V).
    { rewrite Vz; lra. }
    { rewrite V1, Vz; apply rnd_safe with 0%Z; [lia|]; change (bpow radix2 0) with 1; apply Rabs_le; lra. }
    rewrite V, V1, Vz; reflexivity. }
  destruct (relative_error_N_FLT'_ex radix2 (-1074) 53 ltac:(reflexivity) (fun x => negb (Z.even x)) (1 / IZR m)) as (e & t & He & Ht & Z0 & E).
  rewrite V; rewrite E; unfold u_ro in He; rewrite <- ulp64_half in He.
  assert (H1 : ulp64 / (1 + ulp64) < ulp64).
  { apply Rmult_lt_reg_r with (1 + ulp64); [lra|]; unfold Rdiv; rewrite Rmult_assoc, Rinv_l by lra.
    assert (0 < ulp64 * ulp64) by (apply Rmult_lt_0_compat; lra); lra. }
  assert (M49 : IZR m <= bpow radix2 49).
  { change (bpow radix2 49) with (IZR (2 ^ 49)); apply IZR_le; lia. }
  assert (MT : IZR m * Rabs t < ulp64).
  { apply Rle_lt_trans with (bpow radix2 49 * bpow radix2 (-1075)).
    - apply Rmult_le_compat; [lra|apply Rabs_pos|exact M49|].
      apply Rle_trans with (1 := Ht); change (-1075)%Z with (-1 + -1074)%Z; rewrite bpow_plus.
      change (bpow radix2 (-1)) with (/ 2); lra.
    - rewrite <- bpow_plus, ulp64_bpow; apply bpow_lt; lia. }
  replace (IZR m * (1 / IZR m * (1 + e) + t)) with (1 + e + IZR m * t) by (field; lra).
  destruct (Rmult_integral _ _ Z0) as [-> | ->].
  - assert (Rabs (IZR m * t) < ulp64) as B by (rewrite Rabs_mult, (Rabs_right (IZR m)) by lra; exact MT).
    apply Rabs_lt_inv in B; lra.
  - rewrite Rmult_0_r; apply Rabs_le_inv in He; lra.
Qed.
Lemma fmt_1 : fmt 1.
Proof. change 1 with (bpow radix2 0); apply fmt_bpow; lia. Qed.
Lemma pred_1 : pred radix2 (FLT_exp (-1074) 53) 1 = 1 - ulp64.
Proof.
  change 1 with (bpow radix2 0) at 1; rewrite pred_bpow; cbn [bpow]; rewrite ulp64_bpow; reflexivity.
Qed.
Lemma succ_1 : succ radix2 (FLT_exp (-1074) 53) 1 = 1 + 2 * ulp64.
Proof.
  rewrite succ_eq_pos by lra; change 1 with (bpow radix2 0) at 2; rewrite ulp_bpow.
  rewrite ulp64_bpow, two_bpow; reflexivity.
Qed.
Lemma fmt_pred_1 : fmt (1 - ulp64).
Proof. rewrite <- pred_1; apply generic_format_pred; [typeclasses eauto|exact fmt_1]. Qed.

Lemma sample_ok i : (0 <= i <= m)%Z -> finite64 (sample64 i) /\ value (sample64 i) = rnd (h * IZR i) /\
  0 <= value (sample64 i) <= 1 /\ Rabs (value (sample64 i) - IZR i / IZR m) <= 3 * ulp64 * (IZR i / IZR m).
Proof.
  intros Hi; destruct (step_ok m Hm) as (Fs & Es); pose proof (step_range m Hm) as Rs; pose proof (m_ulp m Hm).
  pose proof ulp64_pos; pose proof ulp64_small.
  destruct (ofZ64 i ltac:(lia)) as (Fi & Vi).
  pose proof (mR m Hm) as HmR; pose proof last_product as LP.
  assert (I0 : 0 <= IZR i) by (apply IZR_le; lia).
  assert (I1 : IZR i <= IZR m) by (apply IZR_le; lia).
  assert (X : 0 <= h * IZR i <= IZR m * h).
  { split; [apply Rmult_le_pos; lra|]; rewrite (Rmult_comm (IZR m)); apply Rmult_le_compat_l; lra. }
  destruct (mul64 (step64 m) (ofZ i : Binary64) Fs Fi) as (Fp & Vp).
  { rewrite Vi; apply rnd_safe with 1%Z; [lia|]; rewrite Rabs_right by lra; change (bpow radix2 1) with 2; lra. }
  rewrite Vi in Vp.
  split; [exact Fp|]; split; [exact Vp|].
  change (value (sample64 i)) with (value (PrimFloat.mul (step64 m) (ofZ i : Binary64))); rewrite Vp.
  split; [split|].
  - apply rnd_nonneg; lra.
  - apply round_N_le_midp; [typeclasses eauto|exact fmt_1|]; rewrite succ_1; lra.
  - set (q := IZR i / IZR m).
    assert (Q0 : 0 <= q) by (unfold q; apply Rmult_le_pos; [lra|left; apply Rinv_0_lt_compat; lra]).
    assert (E1 : Rabs (h * IZR i - q) <= 11/10 * ulp64 * q).
    { replace (h * IZR i - q) with ((h - 1 / IZR m) * IZR i) by (unfold q; field; lra).
      rewrite Rabs_mult, (Rabs_right (IZR i)) by lra.
      apply Rle_trans with (11 / 10 * ulp64 * (1 / IZR m) * IZR i); [apply Rmult_le_compat_r; assumption|].
      right; unfold q; field; lra. }
    destruct (Z.eq_dec i 0) as [->|Hi0].
    { unfold q; rewrite !Rmult_0_r, rnd_0; unfold Rdiv; rewrite Rmult_0_l, Rmult_0_r, Rminus_0_r, Rabs_R0; lra. }
    assert (QL : 12 * ulp64 <= q).
    { apply Rle_trans with (1 / IZR m); [assumption|]; unfold q; apply Rmult_le_compat_r; [left; apply Rinv_0_lt_compat; lra|apply IZR_le; lia]. }
    destruct (rnd_err (h * IZR i)) as (e & t & He & Ht & Er); rewrite Er.
    assert (K1 : eta64 <= / 10 * (ulp64 * ulp64)).
    { rewrite !ulp64_bpow; unfold eta64; rewrite <- bpow_plus.
      apply Rle_trans with (bpow radix2 (-4) * bpow radix2 (-53 + -53)).
      - rewrite <- bpow_plus; apply bpow_le; lia.
      - apply Rmult_le_compat_r; [apply bpow_ge_0|]; change (bpow radix2 (-4)) with (/ 16); lra. }
    assert (K2 : ulp64 * ulp64 <= / 12 * (ulp64 * q)).
    { replace (/ 12 * (ulp64 * q)) with (ulp64 * (q / 12)) by field; apply Rmult_le_compat_l; lra. }
    replace (h * IZR i * (1 + e) + t - q) with ((h * IZR i - q) + h * IZR i * e + t) by ring.
    eapply Rle_trans; [apply Rabs_triang|]; eapply Rle_trans; [apply Rplus_le_compat_r, Rabs_triang|].
    rewrite (Rabs_mult (h * IZR i) e), (Rabs_right (h * IZR i)) by lra.
    apply Rabs_le_inv in E1 as E1'.
    assert (U0 : 0 <= ulp64 * q) by (apply Rmult_le_pos; lra).
    assert (U1 : ulp64 * q <= / 1000 * q) by (apply Rmult_le_compat_r; lra).
    assert (K3 : h * IZR i * Rabs e <= 11/10 * q * ulp64) by (apply Rmult_le_compat; try lra; apply Rabs_pos).
    lra.
Qed.
Lemma sample_0 : value (sample64 0) = 0.
Proof. destruct (sample_ok 0 ltac:(lia)) as (_ & -> & _); rewrite Rmult_0_r; apply rnd_0. Qed.
Lemma sample_last : value (sample64 m) = 1 \/ value (sample64 m) = 1 - ulp64.
Proof.
  destruct (sample_ok m ltac:(lia)) as (_ & E & (_ & L) & _); pose proof last_product as LP.
  assert (G : 1 - ulp64 <= value (sample64 m)).
  { rewrite E, <- (rnd_fmt (1 - ulp64)) by exact fmt_pred_1; apply rnd_le; rewrite Rmult_comm; lra. }
  destruct L as [L|L]; [right|left; exact L].
  apply Rle_antisym; [|exact G].
  rewrite <- pred_1; apply pred_ge_gt; [typeclasses eauto|apply value_fmt|exact fmt_1|exact L].
Qed.
Lemma sample_increasing i j : (0 <= i < j)%Z -> (j <= m)%Z -> value (sample64 i) < value (sample64 j).
Proof.
  intros H1 H2; destruct (sample_ok i ltac:(lia)) as (_ & _ & _ & Ei); destruct (sample_ok j ltac:(lia)) as (_ & _ & _ & Ej).
  pose proof (mR m Hm) as HmR; pose proof (m_ulp m Hm) as MU; pose proof ulp64_pos.
  assert (Q : forall k, (0 <= k <= m)%Z -> 0 <= IZR k / IZR m <= 1).
  { intros k Hk; assert (0 <= IZR k <= IZR m) by (split; apply IZR_le; lia); split.
    - apply Rmult_le_pos; [lra|left; apply Rinv_0_lt_compat; lra].
    - apply Rmult_le_reg_r with (IZR m); [lra|]; unfold Rdiv; rewrite Rmult_assoc, Rinv_l by lra; lra. }
  pose proof (Q i ltac:(lia)); pose proof (Q j ltac:(lia)).
  assert (IZR i / IZR m + 1 / IZR m <= IZR j / IZR m).
  { unfold Rdiv; rewrite <- Rmult_plus_distr_r; apply Rmult_le_compat_r; [left; apply Rinv_0_lt_compat; lra|].
    rewrite <- plus_IZR; apply IZR_le; lia. }
  apply Rabs_le_inv in Ei; apply Rabs_le_inv in Ej.
  assert (3 * ulp64 * (IZR i / IZR m) <= 3 * ulp64 * 1) by (apply Rmult_le_compat_l; lra).
  assert (3 * ulp64 * (IZR j / IZR m) <= 3 * ulp64 * 1) by (apply Rmult_le_compat_l; lra).
  lra.
Qed.
End Samples.

Lemma samples_tab64 n : (1 <= n)%Z ->
  samples (K := Binary64) (2 * n) = tab (Z.to_nat (2 * n)) (sample64 (2 * n - 1)).
Proof.
  intros Hn; rewrite samples_eq.
  replace (zrange 0 (2 * n)) with (tab (Z.to_nat (2 * n)) (fun i => i)) by (rewrite <- zrange_tab; f_equal; lia).
  rewrite map_tab; reflexivity.
Qed.

(** ** Initial guesses *)
Lemma million64 : finite64 (lit_1e6 : Binary64) /\ value (lit_1e6 : Binary64) = 1000000.
Proof. exact (ofZ64 1000000 ltac:(lia)). Qed.
Lemma thousand_ulp k : 0 <= k <= 1000 -> 0 <= (2 * k + 6) * ulp64 <= / 10000000.
Proof.
  intros Hk; pose proof ulp64_pos as Hu; split; [apply Rmult_le_pos; lra|].
  assert (T53 : 30000000000 <= 2 ^ 53).
  { replace (2 ^ 53) with (2 ^ 35 * 2 ^ 18) by (rewrite <- pow_add; reflexivity); cbn [pow]; lra. }
  pose proof ulp64_tiny; assert (30000000000 * ulp64 <= 2 ^ 53 * ulp64) by (apply Rmult_le_compat_r; lra).
  assert ((2 * k + 6) * ulp64 <= 2006 * ulp64) by (apply Rmult_le_compat_r; lra); lra.
Qed.
Lemma tiny520 : 0 < / 2 ^ 520 <= / 1000 /\ 4 * / 2 ^ 520 = / 2 ^ 518.
Proof.
  split; [split|].
  - apply Rinv_0_lt_compat, pow_lt; lra.
  - apply Rinv_le_contravar; [lra|]; replace (2 ^ 520) with (2 ^ 10 * 2 ^ 510) by (rewrite <- pow_add; reflexivity).
    assert (1 <= 2 ^ 510) by (apply pow_R1_Rle; lra); cbn [pow] in *; lra.
  - replace (2 ^ 520) with (2 ^ 2 * 2 ^ 518) by (rewrite <- pow_add; reflexivity).
    replace (2 ^ 2) with 4 by ring; field; apply pow_nonzero; lra.
Qed.
(** From computed to exact distances. *)
Lemma closer64 D d D' d' e t : 0 <= D -> 0 <= D' -> 0 <= e <= / 10000000 -> 0 < t ->
  Rabs (d - D) <= e * D + t -> Rabs (d' - D') <= e * D' + t -> d <= d' -> D <= (1 + 3 * e) * D' + 4 * t.
Proof.
  intros HD HD' He Ht E E' H; apply Rabs_le_inv in E; apply Rabs_le_inv in E'.
  apply Rmult_le_reg_l with (1 - e); [lra|].
  assert (0 <= e * D') by (apply Rmult_le_pos; lra).
  assert (e * (e * D') <= / 10000000 * (e * D')) by (apply Rmult_le_compat_r; lra).
  assert (e * t <= / 10000000 * t) by (apply Rmult_le_compat_r; lra).
  lra.
Qed.
Lemma below_million D d e t : 0 <= D <= 999999 -> 0 <= e <= / 10000000 -> 0 < t <= / 1000 -> Rabs (d - D) <= e * D + t -> d < 1000000.
Proof.
  intros HD He Ht E; apply Rabs_le_inv in E; assert (e * D <= / 10000000 * 999999) by (apply Rmult_le_compat; lra); lra.
Qed.
Lemma above_million D d e t : 1000001 <= D -> 0 <= e <= / 10000000 -> 0 < t <= / 1000 -> Rabs (d - D) <= e * D + t -> 1000000 <= d.
Proof.
  intros HD He Ht E; apply Rabs_le_inv in E; assert (e * D <= / 10000000 * D) by (apply Rmult_le_compat_r; lra); lra.
Qed.

Lemma distR_nonneg a b : 0 <= distR a b.
Proof. apply normR_nonneg. Qed.

Lemma guess64 (c : curve_beh Binary64) (P : list PrimFloat.float) (q : Z -> list PrimFloat.float) n :
  cb_count c = n -> (1 <= n)%Z -> INR (length P) <= 1000 -> within (- 2 ^ 399) (2 ^ 399) P ->
  (forall i, (0 <= i < 2 * n)%Z -> cb_point c (sample64 (2 * n - 1) i) = Ok (q i : list Binary64) /\ length (q i) = length P /\
     within (- 2 ^ 399) (2 ^ 399) (q i)) ->
  exists k, (0 <= k < 2 * n)%Z /\ initial_guess_curve c (P : list Binary64) = Ok (sample64 (2 * n - 1) k : Binary64) /\
    ((exists i, (0 <= i < 2 * n)%Z /\ distR (values P) (values (q i)) <= 999999) ->
     forall i, (0 <= i < 2 * n)%Z -> distR (values P) (values (q k)) <=
       (1 + 3 * ((2 * INR (length P) + 6) * ulp64)) * distR (values P) (values (q i)) + / 2 ^ 518) /\
    ((forall i, (0 <= i < 2 * n)%Z -> 1000001 <= distR (values P) (values (q i))) -> k = 0%Z).
Proof.
  intros Ec Hn HK HP Hq.
  pose proof (thousand_ulp (INR (length P)) (conj (pos_INR _) HK)) as He; destruct tiny520 as (Ht & <-).
  set (e := (2 * INR (length P) + 6) * ulp64) in *; set (t := / 2 ^ 520) in *.
  unfold initial_guess_curve; rewrite Ec; cbv zeta; rewrite samples_tab64 by exact Hn.
  set (N := (2 * n)%Z) in *; set (u := sample64 (N - 1)) in *.
  rewrite (aget_tab (Z.to_nat N) u 0%Z) by (unfold N; lia); cbn [bind].
  destruct million64 as (FM & VM).
  destruct (for_range_inv (fun i (st : Binary64 * Binary64) => finite64 (fst st) /\ value (fst st) <= 1000000 /\
      (forall j, (0 <= j < i)%Z -> exists d, value (fst st) <= d /\
         Rabs (d - distR (values P) (values (q j))) <= e * distR (values P) (values (q j)) + t) /\
      ((value (fst st) = 1000000 /\ snd st = u 0%Z) \/
       (exists k, (0 <= k < N)%Z /\ snd st = u k /\ value (fst st) < 1000000 /\
         Rabs (value (fst st) - distR (values P) (values (q k))) <= e * distR (values P) (values (q k)) + t)))
    0%Z N (guess_step c (P : list Binary64) (tab (Z.to_nat N) u)) (lit_1e6 : Binary64, u 0%Z : Binary64)) as (st & E & HI).
  - unfold N; lia.
  - cbn [fst snd]; split; [exact FM|]; rewrite VM; split; [lra|]; split; [intros; lia|left; auto].
  - intros i [mv u0] Hi (Fm & Hm1 & Hm & Hc); cbn [fst snd] in *; unfold guess_step.
    rewrite (aget_tab (Z.to_nat N) u i) by lia; cbn [bind].
    destruct (Hq i Hi) as (Eq & Lq & Wq); rewrite Eq; cbn [bind].
    destruct (dist64 P (q i) (eq_sym Lq) HK HP Wq) as (r & Er & Fr & Dr); fold e in Dr; fold t in Dr.
    rewrite Er; cbn [bind fst].
    change (nltb (vnorm (r : list Binary64)) mv) with (PrimFloat.ltb (vnorm (r : list Binary64)) mv).
    rewrite (ltb64 _ _ Fr Fm).
    set (v := vnorm (r : list Binary64)) in *.
    destruct (Rlt_bool_spec (value v) (value mv)) as [EL|EL].
    + eexists; split; [reflexivity|]; cbn [fst snd]; split; [exact Fr|]; split; [lra|]; split.
      * intros j Hj; destruct (Z.eq_dec j i) as [->|]; [exists (value v); split; [lra|exact Dr]|].
        destruct (Hm j ltac:(lia)) as (d & D1 & D2); exists d; split; [lra|exact D2].
      * right; exists i; split; [lia|]; split; [reflexivity|]; split; [|exact Dr].
        destruct Hc as [(Hc & _)|(k & _ & _ & Hc & _)]; lra.
    + eexists; split; [reflexivity|]; cbn [fst snd]; split; [exact Fm|]; split; [exact Hm1|]; split; [|exact Hc].
      intros j Hj; destruct (Z.eq_dec j i) as [->|]; [exists (value v); split; [lra|exact Dr]|apply Hm; lia].
  - rewrite E; cbn [bind]; destruct st as [mv u0]; cbn [fst snd] in *; destruct HI as (Fm & Hm1 & Hm & Hc).
    destruct Hc as [(Hc & ->)|(k & Hk & -> & Hc & Dk)].
    + exists 0%Z; split; [unfold N; lia|]; split; [reflexivity|]; split; [|reflexivity].
      intros (i & Hi & HD); exfalso; destruct (Hm i Hi) as (d & D1 & D2).
      pose proof (below_million _ d e t (conj (distR_nonneg _ _) HD) He Ht D2); lra.
    + exists k; split; [exact Hk|]; split; [reflexivity|]; split.
      * intros _ i Hi; destruct (Hm i Hi) as (d & D1 & D2).
        apply (closer64 _ (value mv) _ d); try assumption; try apply distR_nonneg; lra.
      * intros H; exfalso; pose proof (above_million _ _ e t (H k Hk) He Ht Dk); lra.
Qed.

Lemma guess_surf64 (s : surf_beh Binary64) (P : list PrimFloat.float) (q : Z -> Z -> list PrimFloat.float) nu nv :
  sb_nu s = nu -> sb_nv s = nv -> (1 <= nu)%Z -> (1 <= nv)%Z -> INR (length P) <= 1000 -> within (- 2 ^ 399) (2 ^ 399) P ->
  (forall i j, (0 <= i < 2 * nu)%Z -> (0 <= j < 2 * nv)%Z ->
     sb_point s (sample64 (2 * nu - 1) i) (sample64 (2 * nv - 1) j) = Ok (q i j : list Binary64) /\ length (q i j) = length P /\
     within (- 2 ^ 399) (2 ^ 399) (q i j)) ->
  exists k l, (0 <= k < 2 * nu)%Z /\ (0 <= l < 2 * nv)%Z /\
    initial_guess_surf s (P : list Binary64) = Ok (sample64 (2 * nu - 1) k : Binary64, sample64 (2 * nv - 1) l : Binary64) /\
    ((exists i j, (0 <= i < 2 * nu)%Z /\ (0 <= j < 2 * nv)%Z /\ distR (values P) (values (q i j)) <= 999999) ->
     forall i j, (0 <= i < 2 * nu)%Z -> (0 <= j < 2 * nv)%Z -> distR (values P) (values (q k l)) <=
       (1 + 3 * ((2 * INR (length P) + 6) * ulp64)) * distR (values P) (values (q i j)) + / 2 ^ 518) /\
    ((forall i j, (0 <= i < 2 * nu)%Z -> (0 <= j < 2 * nv)%Z -> 1000001 <= distR (values P) (values (q i j))) -> k = 0%Z /\ l = 0%Z).
Proof.
  intros Eu Ev Hnu Hnv HK HP Hq.
  pose proof (thousand_ulp (INR (length P)) (conj (pos_INR _) HK)) as He; destruct tiny520 as (Ht & <-).
  set (e := (2 * INR (length P) + 6) * ulp64) in *; set (t := / 2 ^ 520) in *.
  unfold initial_guess_surf; rewrite Eu, Ev; cbv zeta; rewrite !samples_tab64 by assumption.
  set (N := (2 * nu)%Z) in *; set (M := (2 * nv)%Z) in *; set (u := sample64 (N - 1)) in *; set (v := sample64 (M - 1)) in *.
  rewrite (aget_tab (Z.to_nat N) u 0%Z), (aget_tab (Z.to_nat M) v 0%Z) by (unfold N, M; lia); cbn [bind].
  destruct million64 as (FM & VM).
  set (close := fun (d : R) i j => Rabs (d - distR (values P) (values (q i j))) <= e * distR (values P) (values (q i j)) + t).
  set (Inv := fun (visited : Z -> Z -> Prop) (st : Binary64 * Binary64 * Binary64) =>
      finite64 (fst (fst st)) /\ value (fst (fst st)) <= 1000000 /\
      (forall i j, visited i j -> exists d, value (fst (fst st)) <= d /\ close d i j) /\
      ((value (fst (fst st)) = 1000000 /\ snd (fst st) = u 0%Z /\ snd st = v 0%Z) \/
       (exists k l, (0 <= k < N)%Z /\ (0 <= l < M)%Z /\ snd (fst st) = u k /\ snd st = v l /\ value (fst (fst st)) < 1000000 /\
         close (value (fst (fst st))) k l))).
  assert (Weak : forall (V W : Z -> Z -> Prop) st, (forall i j, W i j -> V i j) -> Inv V st -> Inv W st).
  { intros V W st H (I1 & I2 & I3 & I4); split; [exact I1|]; split; [exact I2|]; split; [|exact I4].
    intros i j Hij; apply I3, H, Hij. }
  assert (Step : forall i j V st, (0 <= i < N)%Z -> (0 <= j < M)%Z -> Inv V st ->
    exists st', guess_step2 s (P : list Binary64) (tab (Z.to_nat N) u) (tab (Z.to_nat M) v) i j st = Ok st' /\
      Inv (fun a b => V a b \/ (a = i /\ b = j)) st').
  { intros i j V [[mv u0] v0] Hi Hj (Fm & Hm1 & Hm & Hc); unfold Inv; cbn [fst snd] in *; unfold guess_step2.
    rewrite (aget_tab (Z.to_nat N) u i), (aget_tab (Z.to_nat M) v j) by lia; cbn [bind].
    destruct (Hq i j Hi Hj) as (Eq & Lq & Wq); rewrite Eq; cbn [bind].
    destruct (dist64 P (q i j) (eq_sym Lq) HK HP Wq) as (r & Er & Fr & Dr); fold e in Dr; fold t in Dr.
    rewrite Er; cbn [bind fst].
    change (nltb (vnorm (r : list Binary64)) mv) with (PrimFloat.ltb (vnorm (r : list Binary64)) mv).
    rewrite (ltb64 _ _ Fr Fm).
    set (w := vnorm (r : list Binary64)) in *.
    destruct (Rlt_bool_spec (value w) (value mv)) as [EL|EL].
    + eexists; split; [reflexivity|]; cbn [fst snd]; split; [exact Fr|]; split; [lra|]; split.
      * intros a b [Hab|(-> & ->)]; [|exists (value w); split; [lra|exact Dr]].
        destruct (Hm a b Hab) as (d & D1 & D2); exists d; split; [lra|exact D2].
      * right; exists i, j; split; [lia|]; split; [lia|]; split; [reflexivity|]; split; [reflexivity|]; split; [|exact Dr].
        destruct Hc as [(Hc & _)|(k & l & _ & _ & _ & _ & Hc & _)]; lra.
    + eexists; split; [reflexivity|]; cbn [fst snd]; split; [exact Fm|]; split; [exact Hm1|]; split; [|exact Hc].
      intros a b [Hab|(-> & ->)]; [apply Hm; exact Hab|exists (value w); split; [lra|exact Dr]]. }
  destruct (for_range_inv (fun i st => Inv (fun a b => (0 <= a < i)%Z /\ (0 <= b < M)%Z) st) 0%Z N
    (fun u1 st => for_range 0 M (fun v1 st => guess_step2 s (P : list Binary64) (tab (Z.to_nat N) u) (tab (Z.to_nat M) v) u1 v1 st) st)
    (lit_1e6 : Binary64, u 0%Z : Binary64, v 0%Z : Binary64)) as (st & E & HI).
  - unfold N; lia.
  - unfold Inv; cbn [fst snd]; split; [exact FM|]; rewrite VM; split; [lra|]; split; [intros; lia|left; auto].
  - intros i st Hi HI.
    destruct (for_range_inv (fun j st => Inv (fun a b => ((0 <= a < i)%Z /\ (0 <= b < M)%Z) \/ (a = i /\ (0 <= b < j)%Z)) st) 0%Z M
      (fun v1 st => guess_step2 s (P : list Binary64) (tab (Z.to_nat N) u) (tab (Z.to_nat M) v) i v1 st) st) as (st' & E' & HI').
    + unfold M; lia.
    + eapply Weak; [|exact HI]; intros a b [H|H]; [exact H|lia].
    + intros j st1 Hj H1; destruct (Step i j _ st1 Hi Hj H1) as (st2 & E2 & H2).
      exists st2; split; [exact E2|]; eapply Weak; [|exact H2]; cbn beta; intros a b Hab.
      destruct Hab as [Hab|(-> & Hb)]; [left; left; exact Hab|].
      destruct (Z.eq_dec b j) as [->|]; [right; auto|left; right; split; [reflexivity|lia]].
    + exists st'; split; [exact E'|]; eapply Weak; [|exact HI']; cbn beta; intros a b Hab.
      destruct (Z.eq_dec a i) as [->|]; [right; split; [reflexivity|lia]|left; lia].
  - rewrite E; cbn [bind]; destruct st as [[mv u0] v0]; unfold Inv in HI; cbn [fst snd] in *; destruct HI as (Fm & Hm1 & Hm & Hc).
    destruct Hc as [(Hc & -> & ->)|(k & l & Hk & Hl & -> & -> & Hc & Dk)].
    + exists 0%Z, 0%Z; split; [unfold N; lia|]; split; [unfold M; lia|]; split; [reflexivity|]; split; [|auto].
      intros (i & j & Hi & Hj & HD); exfalso; destruct (Hm i j (conj Hi Hj)) as (d & D1 & D2).
      pose proof (below_million _ d e t (conj (distR_nonneg _ _) HD) He Ht D2); lra.
    + exists k, l; split; [exact Hk|]; split; [exact Hl|]; split; [reflexivity|]; split.
      * intros _ i j Hi Hj; destruct (Hm i j (conj Hi Hj)) as (d & D1 & D2).
        apply (closer64 _ (value mv) _ d); try assumption; try apply distR_nonneg; lra.
      * intros H; exfalso; pose proof (above_million _ _ e t (H k l Hk Hl) He Ht Dk); lra.
Qed.

(** ** Ranges *)
Lemma ltb_SF x y : PrimFloat.ltb x y = SpecFloat.SFltb (FloatOps.Prim2SF x) (FloatOps.Prim2SF y).
Proof. apply FloatAxioms.ltb_spec. Qed.
Lemma clamp64 (x : Binary64) : let y := (if (x <? 0)%num then 0%num else if (1 <? x)%num then 1%num else x) : Binary64 in
  ~ number64 y \/ unit64 y.
Proof.
  cbv zeta; change (nltb x 0%num) with (PrimFloat.ltb x (0%num : Binary64)); change (nltb 1%num x) with (PrimFloat.ltb (1%num : Binary64) x).
  destruct (PrimFloat.ltb x (0%num : Binary64)) eqn:E0.
  { right; split; [exact finite_0|rewrite value_0; lra]. }
  destruct (PrimFloat.ltb (1%num : Binary64) x) eqn:E1.
  { right; split; [exact finite_1|rewrite value_1; lra]. }
  assert (H : ~ number64 x \/ finite64 x).
  { unfold number64, finite64; rewrite ltb_SF in E0, E1.
    destruct (FloatOps.Prim2SF x) as [s|s| |s mm ee]; [right; exact I| |left; intros A; apply A; reflexivity|right; exact I].
    destruct s; discriminate. }
  destruct H as [H|F]; [left; exact H|right; split; [exact F|]].
  rewrite (ltb64 x _ F finite_0), value_0 in E0; rewrite (ltb64 _ x finite_1 F), value_1 in E1.
  destruct (Rlt_bool_spec (value x) 0); [discriminate|]; destruct (Rlt_bool_spec 1 (value x)); [discriminate|]; lra.
Qed.
Lemma sample_unit m i : (1 <= m <= 2 ^ 49)%Z -> (0 <= i <= m)%Z -> unit64 (sample64 m i).
Proof. intros Hm Hi; destruct (sample_ok m Hm i Hi) as (F & _ & V & _); split; assumption. Qed.
Lemma in_samples64 n u : (2 * n - 1 <= 2 ^ 49)%Z -> In u (samples (K := Binary64) (2 * n)) -> unit64 u.
Proof.
  intros Hn H; destruct (Z_le_dec n 0).
  - rewrite samples_eq, zrange_nil in H by lia; destruct H.
  - rewrite samples_tab64 in H by lia; unfold tab in H; apply in_map_iff in H; destruct H as (k & <- & Hk); apply in_seq in Hk.
    apply sample_unit; lia.
Qed.
Lemma curve_range64 (c : curve_beh Binary64) P e1 e2 mi u : (2 * cb_count c - 1 <= 2 ^ 49)%Z ->
  curve_inversion c P e1 e2 mi = Ok u -> (~ number64 u \/ unit64 u) /\ exists m, cb_ders c u = Ok m.
Proof.
  intros Hn H; split; [|exact (curve_result_evaluated _ _ _ _ _ _ _ H)]; revert H.
  apply (curve_inversion_keeps Binary64 (fun u => ~ number64 u \/ unit64 u)).
  - intros ui pt d1 d2 w x E _; unfold curve_newton in E.
    destruct (np_sub pt P) as [r| |]; cbn [bind] in E; try discriminate.
    destruct (matmul11 d1 r); cbn [bind] in E; try discriminate.
    destruct (matmul11 d2 r); cbn [bind] in E; try discriminate.
    injection E as <-; apply clamp64.
  - intros w x E _; apply initial_guess_sample in E; right; exact (in_samples64 _ _ Hn E).
Qed.

(** NaN spreads. *)
Definition isnan64 (x : PrimFloat.float) : Prop := FloatOps.Prim2SF x = SpecFloat.S754_nan.
Lemma nan_or_number x : isnan64 x \/ number64 x.
Proof. unfold isnan64, number64; destruct (FloatOps.Prim2SF x); (left; reflexivity) || (right; discriminate). Qed.
Lemma nan_sub x y : isnan64 x -> isnan64 (x - y)%float.
Proof. unfold isnan64; intros H; rewrite FloatAxioms.sub_spec, H; reflexivity. Qed.
Lemma nan_mul x y : isnan64 x -> isnan64 (x * y)%float.
Proof. unfold isnan64; intros H; rewrite FloatAxioms.mul_spec, H; reflexivity. Qed.
Lemma nan_add x y : isnan64 x \/ isnan64 y -> isnan64 (x + y)%float.
Proof.
  unfold isnan64; intros H; rewrite FloatAxioms.add_spec; destruct H as [-> | ->]; [reflexivity|].
  destruct (FloatOps.Prim2SF x); reflexivity.
Qed.
Lemma nan_sqrt x : isnan64 x -> isnan64 (PrimFloat.sqrt x).
Proof. unfold isnan64; intros H; rewrite FloatAxioms.sqrt_spec, H; reflexivity. Qed.
Lemma nan_leb x y : isnan64 x -> (x <=? y)%float = false.
Proof. unfold isnan64; intros H; rewrite FloatAxioms.leb_spec, H; reflexivity. Qed.
Lemma vnorm_nan64 (x : Binary64) (l : list Binary64) (e : Binary64) : isnan64 x -> (vnorm (x :: l) <=? e)%num = false.
Proof.
  intros H; apply nan_leb, nan_sqrt; unfold vdot, vmap2, nsum; cbn [combine map fold_left fst snd].
  assert (G : forall (m : list Binary64) (a : Binary64), isnan64 a -> isnan64 (fold_left nadd m a)).
  { induction m as [|y m IH]; intros a Ha; [exact Ha|]; cbn [fold_left]; apply IH, nan_add; left; exact Ha. }
  apply G, nan_add; right; apply nan_mul; exact H.
Qed.
Lemma nan_step64 (du dv : Binary64) (a b st : list Binary64) (e1 : Binary64) : length a = 3%nat -> length b = 3%nat -> isnan64 du \/ isnan64 dv ->
  np_bin nadd (vscale du a) (vscale dv b) = Ok st -> (vnorm st <=? e1)%num = false.
Proof.
  intros La Lb Hn E; destruct a as [|a0 a]; [discriminate|]; destruct b as [|b0 b]; [discriminate|].
  unfold np_bin, vscale in E; cbn [map] in E.
  assert (EL : zlen (nmul du a0 :: map (nmul du) a) = zlen (nmul dv b0 :: map (nmul dv) b)).
  { unfold zlen; cbn [length] in *; rewrite !map_length; lia. }
  rewrite EL, Z.eqb_refl in E; injection E as <-; unfold vmap2; cbn [combine map fst snd].
  apply vnorm_nan64, nan_add; destruct Hn as [H|H]; [left|right]; apply nan_mul; exact H.
Qed.
Lemma surf_rows_3_any (K : Num) (s : surf_beh K) u v d :
  (forall u v m, sb_ders s u v = Ok m -> Forall (fun r => length r = 3%nat) m) ->
  get_surf_rows s u v = Ok d -> length (sr_u d) = 3%nat /\ length (sr_v d) = 3%nat.
Proof.
  intros HD; unfold get_surf_rows; destruct (sb_ders s u v) as [m| |] eqn:E; cbn [bind]; try discriminate.
  specialize (HD _ _ _ E); rewrite Forall_forall in HD.
  assert (A : forall i x, aget m i = Ok x -> length x = 3%nat) by (intros i x H; apply HD; exact (aget_In _ _ _ H)).
  destruct (aget m 3) eqn:E3; cbn [bind]; try discriminate.
  destruct (aget m 1) eqn:E1; cbn [bind]; try discriminate.
  destruct (aget m 6); cbn [bind]; try discriminate.
  destruct (aget m 2); cbn [bind]; try discriminate.
  destruct (aget m 4); cbn [bind]; try discriminate.
  intros H; injection H as <-; cbn [sr_u sr_v]; split; eapply A; eassumption.
Qed.
Lemma surf_newton_clamped64 (s : surf_beh Binary64) P u v d u1 v1 : surf_newton s P u v d = Ok (u1, v1) ->
  (~ number64 u1 \/ unit64 u1) /\ (~ number64 v1 \/ unit64 v1).
Proof.
  unfold surf_newton; intros H.
  destruct (surf_res s P u v) as [r| |]; cbn [bind] in H; try discriminate.
  repeat match type of H with (let* _ := matmul11 ?a ?b in _) = _ => destruct (matmul11 a b); cbn [bind] in H; try discriminate end.
  cbv zeta in H; destruct (inv2 _ _ _ _) as [[[[i00 i01] i10] i11]| |]; cbn [bind] in H; try discriminate.
  injection H as <- <-; split; apply clamp64.
Qed.
Lemma surf_sample64 (s : surf_beh Binary64) P u v : (2 * sb_nu s - 1 <= 2 ^ 49)%Z -> (2 * sb_nv s - 1 <= 2 ^ 49)%Z ->
  initial_guess_surf s P = Ok (u, v) -> unit64 u /\ unit64 v.
Proof.
  intros Hu Hv.
  assert (SA : forall n x i, (2 * n - 1 <= 2 ^ 49)%Z -> aget (samples (K := Binary64) (2 * n)) i = Ok x -> unit64 x).
  { intros n x i Hn E; apply aget_In in E; exact (in_samples64 _ _ Hn E). }
  unfold initial_guess_surf; cbv zeta; intros H.
  destruct (aget (samples (2 * sb_nu s)) 0) as [u0| |] eqn:E0; cbn [bind] in H; try discriminate.
  destruct (aget (samples (2 * sb_nv s)) 0) as [v0| |] eqn:E1; cbn [bind] in H; try discriminate.
  match type of H with (let* _ := ?X in _) = _ => destruct X as [st| |] eqn:E end; cbn [bind] in H; try discriminate.
  injection H as <- <-.
  refine (for_range_pres (fun st : Binary64 * Binary64 * Binary64 => unit64 (snd (fst st)) /\ unit64 (snd st)) _ _ _ _ _ _ E _).
  - intros i st1 st2 E2 HS.
    refine (for_range_pres (fun st : Binary64 * Binary64 * Binary64 => unit64 (snd (fst st)) /\ unit64 (snd st)) _ _ _ _ _ _ E2 HS).
    intros j st3 st4 E3 HS3; unfold guess_step2 in E3.
    destruct (aget _ i) as [eu| |] eqn:Eu; cbn [bind] in E3; try discriminate.
    destruct (aget _ j) as [ev| |] eqn:Ev; cbn [bind] in E3; try discriminate.
    destruct (sb_point s eu ev) as [a| |]; cbn [bind] in E3; try discriminate.
    destruct (np_sub P a); cbn [bind] in E3; try discriminate.
    injection E3 as <-; match goal with |- context [if ?b then _ else _] => destruct b end; [|exact HS3]; cbn [fst snd]; split; [exact (SA _ _ _ Hu Eu)|exact (SA _ _ _ Hv Ev)].
  - cbn [fst snd]; split; [exact (SA _ _ _ Hu E0)|exact (SA _ _ _ Hv E1)].
Qed.
Lemma surf_range64 (s : surf_beh Binary64) P e1 e2 mi u v : (2 * sb_nu s - 1 <= 2 ^ 49)%Z -> (2 * sb_nv s - 1 <= 2 ^ 49)%Z ->
  surface_inversion s P e1 e2 mi = Ok (u, v) ->
  ((~ number64 u \/ unit64 u) /\ (~ number64 v \/ unit64 v)) /\
  ((forall u v q, sb_point s u v = Ok q -> number64 u /\ number64 v) ->
   (forall u v m, sb_ders s u v = Ok m -> Forall (fun r => length r = 3%nat) m) -> unit64 u /\ unit64 v).
Proof.
  intros Hu Hv; unfold surface_inversion, surface_inversion_fuel.
  destruct (initial_guess_surf s P) as [[u0 v0]| |] eqn:E0; cbn [bind]; try discriminate.
  apply (surf_sample64 _ _ _ _ Hu Hv) in E0.
  assert (Done : forall a b, unit64 a /\ unit64 b -> ((~ number64 a \/ unit64 a) /\ (~ number64 b \/ unit64 b)) /\
    ((forall u v q, sb_point s u v = Ok q -> number64 u /\ number64 v) ->
     (forall u v m, sb_ders s u v = Ok m -> Forall (fun r => length r = 3%nat) m) -> unit64 a /\ unit64 b)).
  { intros a b H; split; [split; right; apply H|intros _ _; exact H]. }
  destruct (get_surf_rows s u0 v0) as [d0| |] eqn:E1; cbn [bind]; try discriminate.
  destruct (surf_res s P u0 v0); cbn [bind]; try discriminate.
  destruct (_ <=? e1)%num; [intros H; injection H as <- <-; apply Done; exact E0|].
  destruct (surf_cos (sr_u d0) _); cbn [bind]; try discriminate.
  destruct (surf_cos (sr_v d0) _); cbn [bind]; try discriminate.
  destruct (_ && _); [intros H; injection H as <- <-; apply Done; exact E0|].
  assert (L0 : (forall u v m, sb_ders s u v = Ok m -> Forall (fun r => length r = 3%nat) m) -> length (sr_u d0) = 3%nat /\ length (sr_v d0) = 3%nat)
    by (intros HD; exact (surf_rows_3_any _ _ _ _ _ HD E1)); clear E0 E1.
  generalize (S (Z.to_nat (mi + 1))), 0%Z; intros f; revert u0 v0 d0 L0.
  induction f as [|f IH]; intros ui vi d L n; cbn [surf_loop]; [discriminate|].
  destruct (surf_newton s P ui vi d) as [[u1 v1]| |] eqn:EN; cbn [bind]; try discriminate.
  apply surf_newton_clamped64 in EN; destruct EN as [Nu Nv].
  assert (Fin : forall w, (~ number64 w \/ unit64 w) -> number64 w -> unit64 w) by (intros w [H|H] N; [contradiction|exact H]).
  destruct (np_bin nadd _ _) as [st| |] eqn:ES; cbn [bind]; try discriminate.
  destruct (vnorm st <=? e1)%num eqn:EC.
  { intros H; injection H as <- <-; split; [split; assumption|]; intros HP HD; destruct (L HD) as (L1 & L2).
    assert (NN : ~ (isnan64 u1 \/ isnan64 v1)).
    { intros H; rewrite (nan_step64 (u1 - ui)%num (v1 - vi)%num (sr_u d) (sr_v d) st e1 L1 L2) in EC; [discriminate| |exact ES].
      destruct H as [H|H]; [left|right]; apply nan_sub; exact H. }
    destruct (nan_or_number u1); [exfalso; apply NN; auto|]; destruct (nan_or_number v1); [exfalso; apply NN; auto|].
    split; apply Fin; assumption. }
  destruct (get_surf_rows s ui vi) as [d'| |] eqn:ED; cbn [bind]; try discriminate.
  destruct (surf_res s P u1 v1) eqn:ER; cbn [bind]; try discriminate.
  assert (Done1 : ((~ number64 u1 \/ unit64 u1) /\ (~ number64 v1 \/ unit64 v1)) /\
    ((forall u v q, sb_point s u v = Ok q -> number64 u /\ number64 v) ->
     (forall u v m, sb_ders s u v = Ok m -> Forall (fun r => length r = 3%nat) m) -> unit64 u1 /\ unit64 v1)).
  { split; [split; assumption|]; intros HP HD.
    unfold surf_res in ER; destruct (sb_point s u1 v1) eqn:EP; cbn [bind] in ER; try discriminate.
    destruct (HP _ _ _ EP) as (M1 & M2); split; apply Fin; assumption. }
  match goal with |- (if ?b then _ else _) = _ -> _ => destruct b end; [intros H; injection H as <- <-; exact Done1|].
  destruct (surf_cos (sr_u d') _); cbn [bind]; try discriminate.
  destruct (surf_cos (sr_v d') _); cbn [bind]; try discriminate.
  destruct (_ && _); [intros H; injection H as <- <-; exact Done1|].
  destruct (mi <=? n)%Z; [intros H; injection H as <- <-; exact Done1|].
  apply IH; intros HD; exact (surf_rows_3_any _ _ _ _ _ HD ED).
Qed.
