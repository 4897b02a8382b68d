(** Distances (model: ModelParam.v) on binary64 numbers. *)
From Coq Require Import Reals Lra Lia ZArith List Floats.
From Flocq Require Import Core.Core IEEE754.BinarySingleNaN IEEE754.PrimFloat.
From Verif Require Import Py PyLemmas Num ModelKnots ModelBasis ModelCurve ModelParam Spec SpecB64
  ProofNum ProofBasis ProofCurve ProofParam ProofB64 ProofB64Basis ProofB64Span ProofB64Curve ProofB64Knots.
Import ListNotations.
Open Scope R_scope.

Lemma sqrt64 x : finite64 x -> 0 <= value x -> finite64 (PrimFloat.sqrt x) /\ value (PrimFloat.sqrt x) = rnd (sqrt (value x)).
Proof.
  rewrite !finite_B, !value_B, sqrt_equiv; intros Fx Hx.
  pose proof (Bsqrt_correct prec emax Hprec Hmax mode_NE (Prim2B x)) as (V & F & _).
  rewrite fexp_FLT in V; cbn [round_mode] in V; split; [|exact V].
  rewrite F; destruct (Prim2B x) as [s|s| |s m e B]; try reflexivity; try discriminate Fx.
  destruct s; [|reflexivity]; exfalso; revert Hx; cbn [B2R].
  assert (F2R (Float radix2 (cond_Zopp true (Z.pos m)) e) < 0); [|lra].
  apply F2R_lt_0; reflexivity.
Qed.

(** ** Squares *)
Definition squares (l : list PrimFloat.float) := map (fun xy => PrimFloat.mul (fst xy) (snd xy)) (combine l l).
Lemma bpow800 : bpow radix2 800 = 2 ^ 800.
Proof. rewrite bpow_powerRZ; reflexivity. Qed.
Lemma bpow400 : bpow radix2 400 = 2 ^ 400.
Proof. rewrite bpow_powerRZ; reflexivity. Qed.
Lemma squares64 l : within (- 2 ^ 400) (2 ^ 400) l ->
  Forall (fun x => finite64 x /\ 0 <= value x) (squares l) /\ length (squares l) = length l /\
  sumabs (values (squares l)) <= (1 + ulp64) * dotR (values l) (values l) + INR (length l) * eta64 /\
  Rabs (sumR (values (squares l)) - dotR (values l) (values l)) <= ulp64 * dotR (values l) (values l) + INR (length l) * eta64 /\
  dotR (values l) (values l) <= INR (length l) * 2 ^ 800.
Proof.
  pose proof ulp64_pos as Hu; pose proof ulp64_small as Hu2; pose proof eta64_pos as He.
  induction 1 as [|x l (Fx & Hx) _ IH].
  - cbn; unfold dotR, sumabs, sumR; cbn; repeat split; try constructor; try rewrite Rminus_0_r, Rabs_R0; lra.
  - destruct IH as (F & L & S1 & S2 & S3).
    unfold squares, values, dotR, sumabs, sumR in *; cbn [combine map length fold_right fst snd] in *.
    set (s := map (fun xy : PrimFloat.float * PrimFloat.float => (fst xy * snd xy)%float) (combine l l)) in *.
    assert (XX : 0 <= value x * value x <= 2 ^ 800).
    { split; [apply Rle_0_sqr|]; replace (2 ^ 800) with (2 ^ 400 * 2 ^ 400) by (rewrite <- pow_add; reflexivity).
      rewrite <- (Rabs_right (value x * value x)), Rabs_mult by (apply Rle_ge, Rle_0_sqr).
      apply Rmult_le_compat; try apply Rabs_pos; apply Rabs_le; exact Hx. }
    destruct (mul64 x x Fx Fx) as (Fm & Vm).
    { apply rnd_safe with 800%Z; [lia|]; rewrite bpow800, Rabs_right by lra; lra. }
    assert (Pm : 0 <= value (x * x)%float) by (rewrite Vm; apply rnd_nonneg; lra).
    destruct (rnd_err (value x * value x)) as (e & h & Ee & Eh & Er).
    assert (D : Rabs (value (x * x)%float - value x * value x) <= ulp64 * (value x * value x) + eta64).
    { rewrite Vm, Er; replace (value x * value x * (1 + e) + h - value x * value x) with (value x * value x * e + h) by ring.
      eapply Rle_trans; [apply Rabs_triang|]; apply Rplus_le_compat; [|exact Eh].
      rewrite Rabs_mult, Rmult_comm, (Rabs_right (value x * value x)) by lra; apply Rmult_le_compat_r; [lra|exact Ee]. }
    split; [constructor; [split; assumption|exact F]|]; split; [f_equal; exact L|].
    rewrite !S_INR; split; [|split].
    + rewrite (Rabs_right (value (x * x)%float)) by lra; apply Rabs_le_inv in D; lra.
    + match goal with |- Rabs (?v + ?a - (?w + ?r)) <= _ => replace (v + a - (w + r)) with ((v - w) + (a - r)) by ring end.
      eapply Rle_trans; [apply Rabs_triang|]; lra.
    + lra.
Qed.
Lemma fold_nonneg (l : list PrimFloat.float) : forall acc : PrimFloat.float, Forall (fun x => finite64 x /\ 0 <= value x) l ->
  finite64 acc -> 0 <= value acc -> value acc + sumR (values l) <= 2 ^ 900 -> INR (length l) <= 1000 ->
  0 <= value (fold_left PrimFloat.add l acc).
Proof.
  intros acc Fl Fa Ha Hs Hk.
  assert (G : forall m (acc : PrimFloat.float), (m + length l <= 1000)%nat -> finite64 acc -> 0 <= value acc ->
    value acc + sumR (values l) <= (1 + ulp64) ^ m * 2 ^ 900 -> 0 <= value (fold_left PrimFloat.add l acc)).
  - clear acc Fa Ha Hs Hk; pose proof ulp64_pos as Hu; induction Fl as [|x l (Fx & Hx) Fl IH]; intros m acc Hm Fa Ha Hs; [exact Ha|].
    cbn [fold_left length] in *; unfold values, sumR in Hs; cbn [map fold_right] in Hs; fold (values l) in Hs; fold (sumR (values l)) in Hs.
    assert (0 <= sumR (values l)).
    { clear - Fl; unfold sumR, values; induction Fl as [|? ? (_ & H) _ IH]; cbn; [lra|lra]. }
    assert (B1 : (1 + ulp64) ^ m <= 2).
    { assert (GB : grow m <= 11/10 * INR m * ulp64).
      { apply grow_bound; assert (INR m <= INR 1000) by (apply le_INR; lia); assert (1000 <= 2 ^ 41) by (replace (2 ^ 41) with (2 ^ 10 * 2 ^ 31) by (rewrite <- pow_add; reflexivity); assert (1 <= 2 ^ 31) by (apply pow_R1_Rle; lra); cbn [pow]; lra).
        replace (INR 1000) with 1000 in * by (rewrite INR_IZR_INZ; reflexivity); lra. }
      assert (INR m <= 1000) by (replace 1000 with (INR 1000) by (rewrite INR_IZR_INZ; reflexivity); apply le_INR; lia).
      pose proof (pos_INR m).
      assert (INR m * ulp64 <= 1000 * ulp64) by (apply Rmult_le_compat_r; lra).
      unfold grow in GB; pose proof ulp64_tiny as T; assert (2000 <= 2 ^ 53) by (replace (2 ^ 53) with (2 ^ 11 * 2 ^ 42) by (rewrite <- pow_add; reflexivity); assert (1 <= 2 ^ 42) by (apply pow_R1_Rle; lra); cbn [pow]; lra).
      assert (2000 * ulp64 <= 2 ^ 53 * ulp64) by (apply Rmult_le_compat_r; lra); lra. }
    assert (P900 : 0 < 2 ^ 900) by (apply pow_lt; lra).
    assert (B2 : (1 + ulp64) ^ m * 2 ^ 900 <= 2 * 2 ^ 900) by (apply Rmult_le_compat_r; lra).
    destruct (add64 acc x Fa Fx) as (Fs & Vs).
    { apply rnd_safe with 901%Z; [lia|]; replace (bpow radix2 901) with (2 * 2 ^ 900) by (rewrite (pow_bpow 900); rewrite two_bpow; reflexivity).
      rewrite Rabs_right by lra; lra. }
    destruct (rnd_add_err (value acc) (value x) (value_fmt acc) (value_fmt x)) as (e & Ee & Er); rewrite Er in Vs.
    apply (IH (S m)); [lia|exact Fs|rewrite Vs; apply Rabs_le_inv in Ee; pose proof ulp64_small; apply Rmult_le_pos; lra|].
    rewrite Vs; cbn [pow]; apply Rabs_le_inv in Ee.
    assert ((value acc + value x) * (1 + e) <= (value acc + value x) * (1 + ulp64)) by (apply Rmult_le_compat_l; lra).
    assert (sumR (values l) <= sumR (values l) * (1 + ulp64)).
    { rewrite <- (Rmult_1_r (sumR (values l))) at 1; apply Rmult_le_compat_l; lra. }
    assert ((value acc + value x + sumR (values l)) * (1 + ulp64) <= (1 + ulp64) ^ m * 2 ^ 900 * (1 + ulp64)) by (apply Rmult_le_compat_r; lra).
    lra.
  - apply (G 0%nat); try assumption; [|cbn [pow]; lra].
    apply INR_le; replace (INR 1000) with 1000 by (rewrite INR_IZR_INZ; reflexivity); exact Hk.
Qed.

Lemma sqrt_error S s a b : 0 <= S -> 0 <= s -> 0 <= a <= 1/2 -> 0 <= b -> Rabs (s - S) <= a * S + b ->
  Rabs (sqrt s - sqrt S) <= a * sqrt S + 2 * sqrt b.
Proof.
  intros HS Hs Ha Hb HE; apply Rabs_le_inv in HE.
  pose proof (sqrt_pos S); pose proof (sqrt_pos s); pose proof (sqrt_pos b).
  pose proof (sqrt_sqrt S HS) as E1; pose proof (sqrt_sqrt s Hs) as E2; pose proof (sqrt_sqrt b Hb) as E3.
  set (x := sqrt S) in *; set (y := sqrt s) in *; set (z := sqrt b) in *; clearbody x y z.
  assert (0 <= x * z) by (apply Rmult_le_pos; assumption).
  assert (0 <= a * x) by (apply Rmult_le_pos; lra).
  assert (0 <= a * x * x) by (apply Rmult_le_pos; lra).
  assert (0 <= a * x * z) by (apply Rmult_le_pos; lra).
  assert (0 <= a * x * (a * x)) by (apply Rmult_le_pos; lra).
  assert (0 <= z * z) by (apply Rmult_le_pos; lra).
  apply Rabs_le; split.
  - destruct (Rle_lt_dec (x - a * x - 2 * z) y); [lra|exfalso].
    assert (y * y < (x - a * x - 2 * z) * (x - a * x - 2 * z)) by (apply Rmult_le_0_lt_compat; lra).
    assert (0 < x - a * x - 2 * z) by lra.
    assert (2 * z * z <= (x - a * x) * z) by (apply Rmult_le_compat_r; lra).
    assert (0 <= a * (1 - a) * (x * x)) by (apply Rmult_le_pos; [apply Rmult_le_pos; lra|apply Rle_0_sqr]).
    assert ((x - a * x - 2 * z) * (x - a * x - 2 * z) = x * x - a * (x * x) - a * (1 - a) * (x * x) - 4 * ((x - a * x) * z) + 4 * (z * z)) by ring.
    rewrite <- E1, <- E2, <- E3 in HE; lra.
  - destruct (Rle_lt_dec y (x + a * x + 2 * z)); [lra|exfalso].
    assert ((x + a * x + 2 * z) * (x + a * x + 2 * z) < y * y) by (apply Rmult_le_0_lt_compat; lra).
    assert (0 <= (x + a * x + 2 * z) * (x + a * x + 2 * z) - (x * x + a * x * x + z * z)); [|rewrite <- E1, <- E2, <- E3 in HE; lra].
    replace ((x + a * x + 2 * z) * (x + a * x + 2 * z) - (x * x + a * x * x + z * z))
      with (a * x * x + a * x * (a * x) + 4 * (x * z) + 4 * (a * x * z) + 3 * (z * z)) by ring.
    lra.
Qed.

(** ** Euclidean length *)
Lemma vnorm64 (l : list PrimFloat.float) : within (- 2 ^ 400) (2 ^ 400) l -> INR (length l) <= 1000 ->
  finite64 (vnorm (l : list Binary64)) /\ 0 <= value (vnorm (l : list Binary64)) /\
  Rabs (value (vnorm (l : list Binary64)) - normR (values l)) <= (2 * INR (length l) + 4) * ulp64 * normR (values l) + / 2 ^ 520.
Proof.
  intros HW HK; pose proof ulp64_pos as Hu; pose proof ulp64_small as Hu2; pose proof eta64_pos as He.
  destruct (squares64 l HW) as (F & L & S1 & S2 & S3).
  change (vnorm (l : list Binary64)) with (PrimFloat.sqrt (fold_left PrimFloat.add (squares l) (0%num : Binary64))).
  pose proof (dotR_self_nonneg (values l)) as SN.
  set (S := dotR (values l) (values l)) in *; set (k := length l) in *.
  assert (Kpos : 0 <= INR k) by apply pos_INR.
  assert (T53 : 1000000 <= 2 ^ 53).
  { replace (2 ^ 53) with (2 ^ 20 * 2 ^ 33) by (rewrite <- pow_add; reflexivity); assert (1 <= 2 ^ 33) by (apply pow_R1_Rle; lra); cbn [pow]; lra. }
  assert (U6 : 1000000 * ulp64 <= 1).
  { pose proof ulp64_tiny; assert (1000000 * ulp64 <= 2 ^ 53 * ulp64) by (apply Rmult_le_compat_r; lra); lra. }
  assert (KU : INR k * ulp64 <= 1000 * ulp64) by (apply Rmult_le_compat_r; lra).
  assert (G : grow k <= 11/10 * INR k * ulp64).
  { apply grow_bound; assert (1000 <= 2 ^ 41) by (replace (2 ^ 41) with (2 ^ 10 * 2 ^ 31) by (rewrite <- pow_add; reflexivity); assert (1 <= 2 ^ 31) by (apply pow_R1_Rle; lra); cbn [pow]; lra); lra. }
  pose proof (grow_nonneg k) as G0.
  assert (E900 : 2 * (1000 * 2 ^ 800) + 1 <= 2 ^ 900).
  { replace (2 ^ 900) with (2 ^ 100 * 2 ^ 800) by (rewrite <- pow_add; reflexivity).
    assert (1 <= 2 ^ 800) by (apply pow_R1_Rle; lra).
    assert (2001 <= 2 ^ 100) by (replace (2 ^ 100) with (2 ^ 11 * 2 ^ 89) by (rewrite <- pow_add; reflexivity); assert (1 <= 2 ^ 89) by (apply pow_R1_Rle; lra); cbn [pow]; lra).
    assert (2001 * 2 ^ 800 <= 2 ^ 100 * 2 ^ 800) by (apply Rmult_le_compat_r; lra); lra. }
  assert (S800 : S <= 1000 * 2 ^ 800).
  { apply Rle_trans with (1 := S3); apply Rmult_le_compat_r; [apply pow_le; lra|exact HK]. }
  assert (Heta : eta64 * 2 ^ 100 <= 1) by (pose proof eta_ulp; lra).
  assert (E100 : 1000 <= 2 ^ 100) by (replace (2 ^ 100) with (2 ^ 10 * 2 ^ 90) by (rewrite <- pow_add; reflexivity); assert (1 <= 2 ^ 90) by (apply pow_R1_Rle; lra); cbn [pow]; lra).
  assert (KE : INR k * eta64 <= 1000 * eta64) by (apply Rmult_le_compat_r; lra).
  assert (KE1 : 1000 * eta64 <= 1).
  { assert (1000 * eta64 <= 2 ^ 100 * eta64) by (apply Rmult_le_compat_r; lra); lra. }
  assert (US : ulp64 * S <= S) by (rewrite <- (Rmult_1_l S) at 2; apply Rmult_le_compat_r; lra).
  set (A := sumabs (values (squares l))) in *.
  assert (A900 : A <= 2 ^ 900) by lra.
  assert (A0 : 0 <= A).
  { unfold A, sumabs; generalize (values (squares l)); intros v; induction v as [|y v IHv]; cbn; [lra|pose proof (Rabs_pos y); lra]. }
  assert (SA : Rabs (sumR (values (squares l))) <= A).
  { unfold A, sumabs, sumR; generalize (values (squares l)); intros v; induction v as [|y v IHv]; cbn; [rewrite Rabs_R0; lra|].
    eapply Rle_trans; [apply Rabs_triang|]; lra. }
  destruct (sum64 (squares l) (0%num : Binary64) 0 0 A) as (Fs & Es).
  { eapply Forall_impl; [|exact F]; intros y Hy; apply Hy. }
  { exact finite_0. }
  { rewrite Rabs_R0; fold A; lra. }
  { apply Rle_trans with (1 := A900); apply Rle_pow; [lra|lia]. }
  { cbn [Nat.add]; rewrite L; lra. }
  { unfold grow; cbn [pow]; rewrite value_0; replace (0 - 0) with 0 by ring; rewrite Rabs_R0; lra. }
  rewrite Nat.add_0_l, L, Rplus_0_l in Es.
  assert (Ps : 0 <= value (fold_left PrimFloat.add (squares l) (0%num : Binary64))).
  { apply fold_nonneg; try assumption; [exact finite_0|rewrite value_0; lra| |rewrite L; exact HK].
    rewrite value_0; pose proof (Rle_abs (sumR (values (squares l)))); lra. }
  set (s := fold_left PrimFloat.add (squares l) (0%num : Binary64)) in *.
  assert (Es2 : Rabs (value s - S) <= (2 * INR k + 2) * ulp64 * S + 2 * INR k * eta64).
  { replace (value s - S) with ((value s - sumR (values (squares l))) + (sumR (values (squares l)) - S)) by ring.
    eapply Rle_trans; [apply Rabs_triang|].
    assert (grow k * A <= 11/10 * INR k * ulp64 * ((1 + ulp64) * S + INR k * eta64)).
    { apply Rmult_le_compat; lra. }
    assert (X1 : 0 <= INR k * ulp64) by (apply Rmult_le_pos; lra).
    assert (X2 : 11/10 * INR k * ulp64 * ((1 + ulp64) * S) <= 2 * (INR k * ulp64) * S).
    { assert ((1 + ulp64) * S <= 11/10 * S) by (apply Rmult_le_compat_r; lra).
      assert (INR k * ulp64 * ((1 + ulp64) * S) <= INR k * ulp64 * (11/10 * S)) by (apply Rmult_le_compat_l; lra).
      assert (0 <= INR k * ulp64 * S) by (apply Rmult_le_pos; lra); lra. }
    assert (X3 : INR k * ulp64 * (INR k * eta64) <= / 2 * (INR k * eta64)).
    { apply Rmult_le_compat_r; [apply Rmult_le_pos; lra|lra]. }
    assert (0 <= INR k * eta64) by (apply Rmult_le_pos; lra).
    assert (0 <= ulp64 * S) by (apply Rmult_le_pos; lra).
    lra. }
  destruct (sqrt64 s Fs Ps) as (Fq & Vq); split; [exact Fq|].
  split; [rewrite Vq; apply rnd_nonneg, sqrt_pos|].
  rewrite Vq; unfold normR; fold S.
  destruct (rnd_err (sqrt (value s))) as (e & h & Ee & Eh & ->).
  set (a := (2 * INR k + 2) * ulp64) in *; set (b := 2 * INR k * eta64) in *.
  assert (Ha : 0 <= a <= / 100).
  { unfold a; split; [apply Rmult_le_pos; lra|lra]. }
  assert (Hb : 0 <= b) by (unfold b; apply Rmult_le_pos; lra).
  pose proof (sqrt_error S (value s) a b SN Ps ltac:(lra) Hb Es2) as Q.
  pose proof (sqrt_pos S); pose proof (sqrt_pos (value s)); pose proof (sqrt_pos b).
  assert (QB : sqrt b <= / 2 ^ 525).
  { rewrite <- (sqrt_square (/ 2 ^ 525)) by (left; apply Rinv_0_lt_compat, pow_lt; lra); apply sqrt_le_1_alt.
    rewrite <- Rinv_mult, <- pow_add; change (525 + 525)%nat with 1050%nat; unfold b.
    apply Rle_trans with (bpow radix2 11 * eta64).
    - replace (bpow radix2 11) with 2048 by (cbn; lra); lra.
    - unfold eta64; rewrite <- bpow_plus; rewrite pow_bpow, <- bpow_opp; apply bpow_le; lia. }
  assert (Q5 : 32 * / 2 ^ 525 = / 2 ^ 520).
  { replace (2 ^ 525) with (2 ^ 5 * 2 ^ 520) by (rewrite <- pow_add; reflexivity).
    replace (2 ^ 5) with 32 by ring; field; apply pow_nonzero; lra. }
  assert (QE : eta64 <= / 2 ^ 525).
  { unfold eta64; rewrite pow_bpow, <- bpow_opp; apply bpow_le; lia. }
  replace (sqrt (value s) * (1 + e) + h - sqrt S) with ((sqrt (value s) - sqrt S) + sqrt (value s) * e + h) by ring.
  eapply Rle_trans; [apply Rabs_triang|]; eapply Rle_trans; [apply Rplus_le_compat_r, Rabs_triang|].
  rewrite Rabs_mult, (Rabs_right (sqrt (value s))) by lra.
  assert (R1 : sqrt (value s) <= (1 + a) * sqrt S + 2 * sqrt b) by (apply Rabs_le_inv in Q; lra).
  assert (R2 : sqrt (value s) * Rabs e <= ((1 + a) * sqrt S + 2 * sqrt b) * ulp64).
  { apply Rmult_le_compat; try assumption; apply Rabs_pos. }
  assert (R3 : (1 + a) * sqrt S * ulp64 <= 2 * (ulp64 * sqrt S)).
  { assert (0 <= ulp64 * sqrt S) by (apply Rmult_le_pos; lra).
    assert (a * (ulp64 * sqrt S) <= / 100 * (ulp64 * sqrt S)) by (apply Rmult_le_compat_r; lra); lra. }
  assert (R4 : sqrt b * ulp64 <= sqrt b) by (rewrite <- (Rmult_1_r (sqrt b)) at 2; apply Rmult_le_compat_l; lra).
  unfold a in Q |- *; lra.
Qed.

(** ** Distances *)
Lemma differences64 (a b : list PrimFloat.float) : length a = length b -> within (- 2 ^ 399) (2 ^ 399) a -> within (- 2 ^ 399) (2 ^ 399) b ->
  let r := vmap2 (nsub (n := Binary64)) a b in
  within (- 2 ^ 400) (2 ^ 400) r /\ length r = length a /\
  Forall2 (fun x d => exists e, Rabs e <= ulp64 /\ value x = d * (1 + e)) r (subR (values a) (values b)).
Proof.
  cbv zeta; revert b; induction a as [|x a IH]; intros [|y b] Hl Ha Hb; try discriminate.
  - split; [constructor|]; split; [reflexivity|constructor].
  - inversion Ha as [|? ? (Fx & Hx) Ha']; inversion Hb as [|? ? (Fy & Hy) Hb']; subst.
    injection Hl as Hl; destruct (IH b Hl Ha' Hb') as (W & L & D); clear IH.
    unfold vmap2, subR, values in *; cbn [combine map fst snd length] in *.
    assert (P400 : bpow radix2 400 = 2 ^ 399 + 2 ^ 399).
    { rewrite bpow400; change 400%nat with (1 + 399)%nat; rewrite pow_add; cbn [pow]; ring. }
    assert (B : Rabs (value x - value y) <= bpow radix2 400) by (apply Rabs_le; lra).
    destruct (sub64 x y Fx Fy) as (Fs & Vs).
    { apply rnd_safe with 400%Z; [lia|exact B]. }
    destruct (rnd_sub_err (value x) (value y) (value_fmt x) (value_fmt y)) as (e & Ee & Er).
    split; [|split; [f_equal; exact L|]].
    + constructor; [|exact W]; split; [exact Fs|].
      change (- 2 ^ 400 <= value (x - y)%float <= 2 ^ 400); rewrite Vs.
      pose proof (rnd_bound _ 400%Z ltac:(lia) B) as B'; apply Rabs_le_inv in B'; rewrite bpow400 in B'; exact B'.
    + constructor; [|exact D]; exists e; split; [exact Ee|].
      change (value (x - y)%float = (value x - value y) * (1 + e)); rewrite Vs; exact Er.
Qed.
Lemma relative_norm (r : list PrimFloat.float) d : Forall2 (fun x d => exists e, Rabs e <= ulp64 /\ value x = d * (1 + e)) r d ->
  (1 - ulp64) * normR d <= normR (values r) <= (1 + ulp64) * normR d.
Proof.
  intros H; pose proof ulp64_pos as Hu; pose proof ulp64_small as Hu2.
  assert (G : (1 - ulp64) * (1 - ulp64) * dotR d d <= dotR (values r) (values r) <= (1 + ulp64) * (1 + ulp64) * dotR d d).
  { induction H as [|x y r d (e & Ee & Ex) _ IH]; [unfold dotR; cbn; lra|].
    unfold dotR, values in *; cbn [map combine fold_right fst snd]; rewrite Ex; apply Rabs_le_inv in Ee.
    replace (y * (1 + e) * (y * (1 + e))) with ((1 + e) * (1 + e) * (y * y)) by ring.
    assert (0 <= y * y) by apply Rle_0_sqr.
    assert ((1 - ulp64) * (1 - ulp64) <= (1 + e) * (1 + e)) by (apply Rmult_le_compat; lra).
    assert ((1 + e) * (1 + e) <= (1 + ulp64) * (1 + ulp64)) by (apply Rmult_le_compat; lra).
    assert ((1 - ulp64) * (1 - ulp64) * (y * y) <= (1 + e) * (1 + e) * (y * y)) by (apply Rmult_le_compat_r; lra).
    assert ((1 + e) * (1 + e) * (y * y) <= (1 + ulp64) * (1 + ulp64) * (y * y)) by (apply Rmult_le_compat_r; lra).
    lra. }
  pose proof (dotR_self_nonneg d) as D; unfold normR; split.
  - rewrite <- (sqrt_square (1 - ulp64)) at 1 by lra; rewrite <- sqrt_mult by (try apply Rmult_le_pos; lra); apply sqrt_le_1_alt, G.
  - rewrite <- (sqrt_square (1 + ulp64)) at 1 by lra; rewrite <- sqrt_mult by (try apply Rmult_le_pos; lra); apply sqrt_le_1_alt, G.
Qed.
Lemma dist64 (a b : list PrimFloat.float) : length a = length b -> INR (length a) <= 1000 ->
  within (- 2 ^ 399) (2 ^ 399) a -> within (- 2 ^ 399) (2 ^ 399) b ->
  exists r : list PrimFloat.float, np_sub (a : list Binary64) (b : list Binary64) = Ok (r : list Binary64) /\
    finite64 (vnorm (r : list Binary64)) /\
    Rabs (value (vnorm (r : list Binary64)) - distR (values a) (values b)) <=
      (2 * INR (length a) + 6) * ulp64 * distR (values a) (values b) + / 2 ^ 520.
Proof.
  intros Hl HK Ha Hb; pose proof ulp64_pos as Hu; pose proof ulp64_small as Hu2.
  pose proof (differences64 a b Hl Ha Hb) as HD.
  assert (EN : np_sub (a : list Binary64) (b : list Binary64) = Ok (vmap2 (nsub (n := Binary64)) a b)).
  { unfold np_sub, np_bin; replace (zlen (a : list Binary64) =? zlen (b : list Binary64))%Z with true; [reflexivity|].
    symmetry; apply Z.eqb_eq; exact (f_equal Z.of_nat Hl). }
  rewrite EN; cbv zeta in HD; clear EN; revert HD.
  generalize (vmap2 (nsub (n := Binary64)) a b : list PrimFloat.float); intros r (W & L0 & D).
  assert (L : @length PrimFloat.float r = length a) by exact L0; clear L0; exists r; split; [reflexivity|].
  - destruct (vnorm64 r W) as (F & _ & E); [rewrite L; exact HK|]; split; [exact F|].
    rewrite L in E; apply relative_norm in D; unfold distR.
    set (n1 := normR (values _)) in *; set (n0 := normR (subR _ _)) in *; set (v := value _) in *.
    assert (N0 : 0 <= n0) by apply normR_nonneg.
    assert (Kpos : 0 <= INR (length a)) by apply pos_INR; set (k := INR (length a)) in *.
    assert (U6 : 1000000 * ulp64 <= 1).
    { pose proof ulp64_tiny; assert (1000000 <= 2 ^ 53) by (replace (2 ^ 53) with (2 ^ 20 * 2 ^ 33) by (rewrite <- pow_add; reflexivity); assert (1 <= 2 ^ 33) by (apply pow_R1_Rle; lra); cbn [pow]; lra).
      assert (1000000 * ulp64 <= 2 ^ 53 * ulp64) by (apply Rmult_le_compat_r; lra); lra. }
    assert (KU : k * ulp64 <= 1000 * ulp64) by (apply Rmult_le_compat_r; lra).
    assert (X : (2 * k + 4) * ulp64 * n1 <= (2 * k + 4) * ulp64 * ((1 + ulp64) * n0)).
    { apply Rmult_le_compat_l; [apply Rmult_le_pos; lra|lra]. }
    assert (Y : (2 * k + 4) * ulp64 * (ulp64 * n0) <= 1 * (ulp64 * n0)).
    { apply Rmult_le_compat_r; [apply Rmult_le_pos; lra|lra]. }
    apply Rabs_le_inv in E; apply Rabs_le; lra.
Qed.
