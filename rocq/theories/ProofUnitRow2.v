(** Normalised vectors on binary64 numbers: length 1 up to rounding, no component
    outside [-1,1]. *)
From Coq Require Import Reals Lra Lia ZArith List Floats.
From Flocq Require Import Core.Core.
From Verif Require Import Py PyLemmas Num ModelKnots ModelBasis ModelSurface Spec SpecB64 ProofNum ProofParam ProofParam7 ProofSmooth2
  ProofB64 ProofB64Basis ProofB64Span ProofB64Curve ProofB64Knots ProofB64Norm ProofUnitRow.
Import ListNotations.
Open Scope R_scope.

(** ** One component *)
Lemma quotient_err x N v u : 0 < u <= / 1000 -> 0 < N -> Rabs (v - N) <= 11 * u * N -> 
  0 < v /\ Rabs (x / v - x / N) <= 113/10 * u * Rabs (x / N).
Proof.
  intros Hu HN HE; apply Rabs_le_inv in HE.
  assert (HV : N * (1 - 11 * u) <= v) by lra.
  assert (V0 : 98/100 * N <= v).
  { apply Rle_trans with (2 := HV); rewrite Rmult_comm; apply Rmult_le_compat_l; lra. }
  assert (Hv : 0 < v) by lra; split; [exact Hv|].
  replace (x / v - x / N) with (x / N * ((N - v) / v)) by (field; lra).
  rewrite Rabs_mult, Rmult_comm; apply Rmult_le_compat_r; [apply Rabs_pos|].
  unfold Rdiv; rewrite Rabs_mult, (Rabs_right (/ v)) by (apply Rle_ge, Rlt_le, Rinv_0_lt_compat; exact Hv).
  apply Rmult_le_reg_r with v; [exact Hv|]; rewrite Rmult_assoc, Rinv_l, Rmult_1_r by lra.
  assert (113 * / 10 * u * (98/100 * N) <= 113 * / 10 * u * v) by (apply Rmult_le_compat_l; lra).
  assert (0 <= u * N) by (apply Rmult_le_pos; lra).
  apply Rabs_le; lra.
Qed.
Lemma div_unit (x w : PrimFloat.float) N : finite64 x -> finite64 w -> 0 < N -> Rabs (value w - N) <= 11 * ulp64 * N -> Rabs (value x) <= N ->
  finite64 (x / w)%float /\ value (x / w)%float = rnd (value x / value w) /\ 0 < value w /\
  Rabs (value (x / w)%float - value x / N) <= 13 * ulp64 * Rabs (value x / N) + eta64.
Proof.
  intros Fx Fw HN HE HX; pose proof ulp64_small as Hu.
  destruct (quotient_err (value x) N (value w) ulp64 Hu HN HE) as (Hw & HQ).
  assert (B1 : Rabs (value x / N) <= 1).
  { unfold Rdiv; rewrite Rabs_mult, (Rabs_right (/ N)) by (apply Rle_ge, Rlt_le, Rinv_0_lt_compat; exact HN).
    apply Rmult_le_reg_r with N; [exact HN|]; rewrite Rmult_assoc, Rinv_l by lra; lra. }
  set (b := value x / N) in *; set (z := value x / value w) in *; pose proof (Rabs_pos b) as P.
  assert (UB : 0 <= ulp64 * Rabs b <= / 1000 * Rabs b) by (split; [apply Rmult_le_pos; lra|apply Rmult_le_compat_r; lra]).
  assert (Z1 : Rabs z <= Rabs b + 113/10 * ulp64 * Rabs b).
  { replace z with (b + (z - b)) by ring; eapply Rle_trans; [apply Rabs_triang|]; lra. }
  destruct (div64 x w Fx Fw ltac:(lra)) as (F & V).
  { apply rnd_safe with 1%Z; [lia|]; fold z; change (bpow radix2 1) with 2; lra. }
  split; [exact F|]; split; [exact V|]; split; [exact Hw|].
  rewrite V; fold z; destruct (rnd_err z) as (e & h & Ee & Eh & ->).
  replace (z * (1 + e) + h - b) with ((z - b) + (z * e + h)) by ring.
  eapply Rle_trans; [apply Rabs_triang|].
  assert (Rabs (z * e + h) <= ulp64 * Rabs z + eta64).
  { eapply Rle_trans; [apply Rabs_triang|]; apply Rplus_le_compat; [|exact Eh].
    rewrite Rabs_mult, Rmult_comm; apply Rmult_le_compat_r; [apply Rabs_pos|exact Ee]. }
  assert (ulp64 * Rabs z <= ulp64 * (Rabs b + 113/10 * ulp64 * Rabs b)) by (apply Rmult_le_compat_l; lra).
  assert (ulp64 * (ulp64 * Rabs b) <= / 1000 * (ulp64 * Rabs b)) by (apply Rmult_le_compat_r; lra).
  lra.
Qed.

(** ** Three components *)
Lemma norm3R (r : list R) : length r = 3%nat -> normR r = sqrt (nth 0 r 0 * nth 0 r 0 + nth 1 r 0 * nth 1 r 0 + nth 2 r 0 * nth 2 r 0).
Proof.
  intros L; destruct r as [|a [|b [|c [|]]]]; try discriminate L.
  unfold normR, dotR; cbn; f_equal; ring.
Qed.
Lemma comp_le (r : list R) c : length r = 3%nat -> (c < 3)%nat -> Rabs (nth c r 0) <= normR r.
Proof.
  intros L Hc; rewrite norm3R by exact L; rewrite <- sqrt_Rsqr_abs; apply sqrt_le_1_alt; unfold Rsqr.
  pose proof (Rle_0_sqr (nth 0 r 0)) as Q0; pose proof (Rle_0_sqr (nth 1 r 0)) as Q1; pose proof (Rle_0_sqr (nth 2 r 0)) as Q2; unfold Rsqr in *.
  destruct c as [|[|[|]]]; [lra|lra|lra|lia].
Qed.
(** Vectors near a unit vector have length near 1. *)
Lemma near_unit (r b : list R) u h : length r = 3%nat -> length b = 3%nat -> 0 < u -> 0 <= h <= / 100 * u -> normR b = 1 ->
  (forall c, (c < 3)%nat -> Rabs (nth c r 0 - nth c b 0) <= 13 * u * Rabs (nth c b 0) + h) -> Rabs (normR r - 1) <= 14 * u.
Proof.
  intros Lr Lb Hu Hh N1 HE.
  assert (B1 : forall c, (c < 3)%nat -> Rabs (nth c b 0) <= 1) by (intros c Hc; rewrite <- N1; apply comp_le; assumption).
  assert (SB : nth 0 b 0 * nth 0 b 0 + nth 1 b 0 * nth 1 b 0 + nth 2 b 0 * nth 2 b 0 = 1).
  { rewrite norm3R in N1 by exact Lb; apply sqrt_lem_0 in N1; [lra| |lra].
    pose proof (Rle_0_sqr (nth 0 b 0)) as Q0; pose proof (Rle_0_sqr (nth 1 b 0)) as Q1; pose proof (Rle_0_sqr (nth 2 b 0)) as Q2; unfold Rsqr in *; lra. }
  assert (S : forall c, (c < 3)%nat -> (nth c r 0 - nth c b 0) * (nth c r 0 - nth c b 0) <= 169 * (u * u) * (nth c b 0 * nth c b 0) + 27/100 * (u * u)).
  { intros c Hc; specialize (HE c Hc); specialize (B1 c Hc).
    set (d := nth c r 0 - nth c b 0) in *; set (y := nth c b 0) in *.
    replace (d * d) with (Rabs d * Rabs d) by (rewrite <- Rabs_mult; apply Rabs_right, Rle_ge, Rle_0_sqr).
    replace (y * y) with (Rabs y * Rabs y) by (rewrite <- Rabs_mult; apply Rabs_right, Rle_ge, Rle_0_sqr).
    pose proof (Rabs_pos d); pose proof (Rabs_pos y); set (e := Rabs y) in *.
    apply Rle_trans with ((13 * u * e + h) * (13 * u * e + h)); [apply Rmult_le_compat; assumption|].
    replace ((13 * u * e + h) * (13 * u * e + h)) with (169 * (u * u) * (e * e) + (26 * e * (u * h) + h * h)) by ring.
    apply Rplus_le_compat_l.
    assert (u * h <= u * (/ 100 * u)) by (apply Rmult_le_compat_l; lra).
    assert (0 <= u * h) by (apply Rmult_le_pos; lra).
    assert (e * (u * h) <= 1 * (u * h)) by (apply Rmult_le_compat_r; lra).
    assert (h * h <= / 100 * u * (/ 100 * u)) by (apply Rmult_le_compat; lra).
    assert (0 <= u * u) by (apply Rmult_le_pos; lra).
    lra. }
  assert (D : sqrt ((nth 0 r 0 - nth 0 b 0) * (nth 0 r 0 - nth 0 b 0) + (nth 1 r 0 - nth 1 b 0) * (nth 1 r 0 - nth 1 b 0) + (nth 2 r 0 - nth 2 b 0) * (nth 2 r 0 - nth 2 b 0)) <= 14 * u).
  { rewrite <- (sqrt_square (14 * u)) by lra; apply sqrt_le_1_alt.
    pose proof (S 0%nat ltac:(lia)); pose proof (S 1%nat ltac:(lia)); pose proof (S 2%nat ltac:(lia)).
    assert (E : 169 * (u * u) * (nth 0 b 0 * nth 0 b 0 + nth 1 b 0 * nth 1 b 0 + nth 2 b 0 * nth 2 b 0) = 169 * (u * u)) by (rewrite SB; ring).
    assert (0 <= u * u) by (apply Rmult_le_pos; lra); lra. }
  rewrite norm3R in N1 by exact Lb; rewrite norm3R by exact Lr.
  pose proof (norm3_triang (nth 0 b 0) (nth 1 b 0) (nth 2 b 0) (nth 0 r 0 - nth 0 b 0) (nth 1 r 0 - nth 1 b 0) (nth 2 r 0 - nth 2 b 0)) as T1.
  pose proof (norm3_triang (nth 0 r 0) (nth 1 r 0) (nth 2 r 0) (nth 0 b 0 - nth 0 r 0) (nth 1 b 0 - nth 1 r 0) (nth 2 b 0 - nth 2 r 0)) as T2.
  replace (nth 0 b 0 + (nth 0 r 0 - nth 0 b 0)) with (nth 0 r 0) in T1 by ring; replace (nth 1 b 0 + (nth 1 r 0 - nth 1 b 0)) with (nth 1 r 0) in T1 by ring;
  replace (nth 2 b 0 + (nth 2 r 0 - nth 2 b 0)) with (nth 2 r 0) in T1 by ring.
  replace (nth 0 r 0 + (nth 0 b 0 - nth 0 r 0)) with (nth 0 b 0) in T2 by ring; replace (nth 1 r 0 + (nth 1 b 0 - nth 1 r 0)) with (nth 1 b 0) in T2 by ring;
  replace (nth 2 r 0 + (nth 2 b 0 - nth 2 r 0)) with (nth 2 b 0) in T2 by ring.
  replace ((nth 0 b 0 - nth 0 r 0) * (nth 0 b 0 - nth 0 r 0) + (nth 1 b 0 - nth 1 r 0) * (nth 1 b 0 - nth 1 r 0) + (nth 2 b 0 - nth 2 r 0) * (nth 2 b 0 - nth 2 r 0))
    with ((nth 0 r 0 - nth 0 b 0) * (nth 0 r 0 - nth 0 b 0) + (nth 1 r 0 - nth 1 b 0) * (nth 1 r 0 - nth 1 b 0) + (nth 2 r 0 - nth 2 b 0) * (nth 2 r 0 - nth 2 b 0)) in T2 by ring.
  rewrite N1 in T1, T2; apply Rabs_le; lra.
Qed.

(** ** The norm and its comparison with 0 *)
Lemma inv520 : / 2 ^ 520 <= ulp64 * (1 / 100000000).
Proof.
  unfold ulp64; replace (2 ^ 520) with (2 ^ 53 * 2 ^ 467) by (rewrite <- pow_add; reflexivity).
  rewrite Rinv_mult; apply Rmult_le_compat_l; [apply Rlt_le, Rinv_0_lt_compat, pow_lt; lra|].
  replace (1 / 100000000) with (/ 100000000) by field; apply Rinv_le_contravar; [lra|].
  replace (2 ^ 467) with (2 ^ 27 * 2 ^ 440) by (rewrite <- pow_add; reflexivity); assert (1 <= 2 ^ 440) by (apply pow_R1_Rle; lra); cbn [pow]; lra.
Qed.
(** [w] is the length of [r] up to rounding. *)
Definition norm_ok (r : list PrimFloat.float) (w : PrimFloat.float) : Prop :=
  finite64 w /\ 0 <= value w <= bpow radix2 1000 /\
  Rabs (value w - normR (values r)) <= 10 * ulp64 * normR (values r) + / 2 ^ 520.
Lemma norm_top (r : list PrimFloat.float) (w : PrimFloat.float) : length r = 3%nat -> within (- 2 ^ 400) (2 ^ 400) r -> finite64 w -> 0 <= value w ->
  Rabs (value w - normR (values r)) <= 10 * ulp64 * normR (values r) + / 2 ^ 520 -> norm_ok r w.
Proof.
  intros L W F P E; split; [exact F|]; split; [|exact E]; split; [exact P|].
  pose proof ulp64_small as Hu; pose proof (normR_nonneg (values r)) as N0.
  assert (NB : normR (values r) <= 2 * 2 ^ 400).
  { assert (P4 : 0 <= 2 ^ 400) by (apply pow_le; lra).
    rewrite norm3R by (unfold values; rewrite map_length; exact L); rewrite <- (sqrt_square (2 * 2 ^ 400)) by lra; apply sqrt_le_1_alt.
    assert (S : forall c, (c < 3)%nat -> nth c (values r) 0 * nth c (values r) 0 <= 2 ^ 400 * 2 ^ 400).
    { intros c Hc; unfold values; change 0 with (value 0%float); rewrite map_nth.
      assert (B := proj1 (Forall_forall _ _) W (nth c r 0%float) ltac:(apply nth_In; lia)); destruct B as (_ & B).
      set (y := value (nth c r 0%float)) in *.
      replace (y * y) with (Rabs y * Rabs y) by (rewrite <- Rabs_mult; apply Rabs_right, Rle_ge, Rle_0_sqr).
      assert (Rabs y <= 2 ^ 400) by (apply Rabs_le; exact B); apply Rmult_le_compat; auto using Rabs_pos. }
    pose proof (S 0%nat ltac:(lia)); pose proof (S 1%nat ltac:(lia)); pose proof (S 2%nat ltac:(lia)).
    replace (2 * 2 ^ 400 * (2 * 2 ^ 400)) with (4 * (2 ^ 400 * 2 ^ 400)) by ring.
    assert (0 <= 2 ^ 400 * 2 ^ 400) by (apply Rmult_le_pos; exact P4); lra. }
  assert (UN : ulp64 * normR (values r) <= / 1000 * normR (values r)) by (apply Rmult_le_compat_r; lra).
  assert (I1 : / 2 ^ 520 <= 1) by (pose proof inv520; lra).
  apply Rabs_le_inv in E; replace (bpow radix2 1000) with (2 ^ 1000) by exact (pow_bpow 1000).
  replace (2 ^ 1000) with (2 ^ 600 * 2 ^ 400) by (rewrite <- pow_add; reflexivity).
  assert (1 <= 2 ^ 400) by (apply pow_R1_Rle; lra).
  assert (5 <= 2 ^ 600) by (replace (2 ^ 600) with (2 ^ 3 * 2 ^ 597) by (rewrite <- pow_add; reflexivity); assert (1 <= 2 ^ 597) by (apply pow_R1_Rle; lra); cbn [pow] in *; lra).
  assert (5 * 2 ^ 400 <= 2 ^ 600 * 2 ^ 400) by (apply Rmult_le_compat_r; lra); lra.
Qed.
Lemma norm_bounds (r : list PrimFloat.float) : length r = 3%nat -> within (- 2 ^ 400) (2 ^ 400) r -> norm_ok r (vnorm (r : list Binary64)).
Proof.
  intros L W; destruct (vnorm64 r W ltac:(rewrite L; cbn; lra)) as (F & P & E).
  rewrite L in E; replace (2 * INR 3 + 4) with 10 in E by (cbn; lra); apply norm_top; assumption.
Qed.
Section Row.
Variable r : list PrimFloat.float.
Variable w : PrimFloat.float.
Hypothesis L : length r = 3%nat.
Hypothesis W : within (- 2 ^ 400) (2 ^ 400) r.
Hypothesis NO : norm_ok r w.
Lemma small_row : normR (values r) <= 99/10000000000 -> isclose (w : Binary64) (0%num : Binary64) = true.
Proof.
  intros HN; destruct NO as (F & (P & B) & E); destruct lit5_ok as (F5 & V5); pose proof ulp64_small as Hu; pose proof ulp64_tiny as Ht.
  pose proof (normR_nonneg (values r)) as N0.
  assert (Hs : ulp64 <= / 1000000).
  { unfold ulp64; apply Rinv_le_contravar; [lra|]; replace (2 ^ 53) with (2 ^ 20 * 2 ^ 33) by (rewrite <- pow_add; reflexivity); assert (1 <= 2 ^ 33) by (apply pow_R1_Rle; lra); cbn [pow] in *; lra. }
  apply (proj1 (isclose64 (lit_1em5 : Binary64) (w : Binary64) (0%num : Binary64) (1 / 100000) F5 ltac:(lra) V5 F finite_0
    ltac:(rewrite Rabs_right; lra) ltac:(rewrite value_0, Rabs_R0; apply bpow_ge_0))).
  rewrite value_0, Rabs_R0, Rminus_0_r, Rabs_right by lra.
  assert (ulp64 * normR (values r) <= / 1000000 * normR (values r)) by (apply Rmult_le_compat_r; lra).
  pose proof inv520; apply Rabs_le_inv in E; lra.
Qed.
Hypothesis HN : 101/10000000000 <= normR (values r).
Lemma norm_rel : Rabs (value w - normR (values r)) <= 11 * ulp64 * normR (values r).
Proof.
  destruct NO as (_ & _ & E); pose proof inv520 as I; pose proof ulp64_small as Hu.
  assert (ulp64 * (1 / 100000000) <= ulp64 * normR (values r)) by (apply Rmult_le_compat_l; lra); lra.
Qed.
Lemma large_row : isclose (w : Binary64) (0%num : Binary64) = false.
Proof.
  destruct NO as (F & (P & B) & _); destruct lit5_ok as (F5 & V5); pose proof ulp64_small as Hu.
  pose proof norm_rel as E.
  assert (Hs : ulp64 <= / 1000000).
  { unfold ulp64; apply Rinv_le_contravar; [lra|]; replace (2 ^ 53) with (2 ^ 20 * 2 ^ 33) by (rewrite <- pow_add; reflexivity); assert (1 <= 2 ^ 33) by (apply pow_R1_Rle; lra); cbn [pow] in *; lra. }
  apply (proj2 (isclose64 (lit_1em5 : Binary64) (w : Binary64) (0%num : Binary64) (1 / 100000) F5 ltac:(lra) V5 F finite_0
    ltac:(rewrite Rabs_right; lra) ltac:(rewrite value_0, Rabs_R0; apply bpow_ge_0))).
  rewrite value_0, Rabs_R0, Rminus_0_r, Rabs_right by lra.
  assert (ulp64 * normR (values r) <= / 1000000 * normR (values r)) by (apply Rmult_le_compat_r; lra).
  apply Rabs_le_inv in E; lra.
Qed.
Definition divided : list PrimFloat.float := map (fun x => (x / w)%float) r.
Lemma divided_close c : (c < 3)%nat -> finite64 (nth c divided 0%float) /\
  Rabs (value (nth c divided 0%float) - value (nth c r 0%float) / normR (values r)) <= 13 * ulp64 * Rabs (value (nth c r 0%float) / normR (values r)) + tiny64.
Proof.
  intros Hc; destruct NO as (F & _ & _).
  assert (ND : nth c divided 0%float = (nth c r 0%float / w)%float).
  { unfold divided; rewrite (nth_indep _ 0%float (0 / w)%float) by (rewrite map_length; lia).
    exact (map_nth (fun x => (x / w)%float) r 0%float c). }
  destruct (proj1 (Forall_forall _ _) W (nth c r 0%float) ltac:(apply nth_In; lia)) as (Fx & _).
  destruct (div_unit (nth c r 0%float) w (normR (values r)) Fx F ltac:(lra) norm_rel) as (F' & _ & _ & E').
  { pose proof (comp_le (values r) c ltac:(unfold values; rewrite map_length; exact L) Hc) as C; revert C.
    unfold values; change 0 with (value 0%float) at 1; rewrite map_nth; auto. }
  rewrite ND, tiny_eta; split; [exact F'|exact E'].
Qed.
Lemma divided_len : length divided = 3%nat.
Proof. unfold divided; rewrite map_length; exact L. Qed.
Lemma divided_unit : Rabs (normR (values divided) - 1) <= 14 * ulp64.
Proof.
  pose proof ulp64_pos as Hu; set (N := normR (values r)) in *.
  apply near_unit with (b := map (fun x => x * / N) (values r)) (h := tiny64).
  - unfold values; rewrite map_length; exact divided_len.
  - unfold values; rewrite !map_length; exact L.
  - exact Hu.
  - rewrite tiny_eta; pose proof eta64_pos; pose proof eta_ulp as E; split; [lra|].
    assert (100 <= 2 ^ 100) by (replace (2 ^ 100) with (2 ^ 7 * 2 ^ 93) by (rewrite <- pow_add; reflexivity); assert (1 <= 2 ^ 93) by (apply pow_R1_Rle; lra); cbn [pow] in *; lra).
    assert (eta64 * 100 <= eta64 * 2 ^ 100) by (apply Rmult_le_compat_l; lra); lra.
  - rewrite normR_scale; fold N; rewrite Rabs_right by (apply Rle_ge, Rlt_le, Rinv_0_lt_compat; lra); apply Rinv_r; lra.
  - intros c Hc; destruct (divided_close c Hc) as (_ & E); fold N in E.
    assert (VN : forall l, nth c (values l) 0 = value (nth c l 0%float)) by (intros l; exact (map_nth value l 0%float c)).
    replace (nth c (map (fun x => x * / N) (values r)) 0) with (value (nth c r 0%float) / N); [rewrite VN; exact E|].
    replace 0 with (0 * / N) at 1 by ring; rewrite (map_nth (fun x => x * / N)), VN; reflexivity.
Qed.
End Row.
