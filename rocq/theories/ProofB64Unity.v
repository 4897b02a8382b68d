(** The partition-of-unity check of fitting.py (model: ModelFit.v) on binary64
    numbers: sums in any order. *)
From Coq Require Import Reals Lra Lia ZArith List Floats Permutation.
From Flocq Require Import Core.Core.
From Verif Require Import Py PyLemmas Num ModelFit Spec SpecB64 ProofB64 ProofB64Basis ProofB64Span ProofB64Knots.
Import ListNotations.
Open Scope R_scope.

Fixpoint rsum (l : list PrimFloat.float) : R :=
  match l with [] => 0 | x :: l => value x + rsum l end.
Lemma rsum_app l1 l2 : rsum (l1 ++ l2) = rsum l1 + rsum l2.
Proof. induction l1 as [|x l1 IH]; cbn [rsum app]; [ring|rewrite IH; ring]. Qed.
Lemma rsum_perm l l' : Permutation l l' -> rsum l = rsum l'.
Proof. induction 1; cbn [rsum]; lra. Qed.
Definition small64 (x : PrimFloat.float) : Prop := finite64 x /\ 0 <= value x <= 2.
Lemma rsum_bound l : Forall small64 l -> 0 <= rsum l <= 2 * INR (length l).
Proof.
  induction l as [|x l IH]; intros H; [cbn; lra|].
  inversion H as [|? ? (_ & B) Hl]; subst; specialize (IH Hl); cbn [length rsum]; rewrite S_INR; lra.
Qed.

Lemma added_bound l a : added64 l a -> Forall small64 l -> INR (length l) <= 2 ^ 40 ->
  finite64 a /\ 0 <= value a /\ Rabs (value a - rsum l) <= 2 * INR (length l) * ulp64 * rsum l.
Proof.
  pose proof ulp64_small as Hu.
  assert (U40 : 2 * 2 ^ 40 * ulp64 <= / 1000).
  { unfold ulp64; apply (Rmult_le_reg_r (2 ^ 53)); [apply pow_lt; lra|].
    rewrite Rmult_assoc, Rinv_l by (apply pow_nonzero; lra); lra. }
  induction 1 as [|x|l1 l2 a b H1 IH1 H2 IH2|l l' a HP H IH]; intros HS HL.
  - cbn [rsum length]; change (value 0%float) with (value (0%num : Binary64)); rewrite value_0.
    split; [exact finite_0|split; [lra|]]; rewrite Rminus_0_r, Rabs_R0; cbn [INR]; lra.
  - inversion HS as [|? ? (F & B) _]; subst; cbn [rsum length].
    split; [exact F|split; [lra|]]; rewrite Rplus_0_r, Rminus_diag_eq, Rabs_R0 by reflexivity.
    cbn [INR]; apply Rmult_le_pos; lra.
  - apply Forall_app in HS as (S1 & S2); rewrite app_length, plus_INR in HL |- *; rewrite rsum_app.
    pose proof (pos_INR (length l1)) as P1; pose proof (pos_INR (length l2)) as P2.
    destruct (IH1 S1 ltac:(lra)) as (Fa & Ba & Ea); destruct (IH2 S2 ltac:(lra)) as (Fb & Bb & Eb).
    pose proof (rsum_bound l1 S1) as R1; pose proof (rsum_bound l2 S2) as R2.
    set (n1 := INR (length l1)) in *; set (n2 := INR (length l2)) in *.
    set (s1 := rsum l1) in *; set (s2 := rsum l2) in *.
    assert (K : forall n s v, 0 <= n <= 2 ^ 40 -> 0 <= s <= 2 * n -> Rabs (v - s) <= 2 * n * ulp64 * s -> v <= 4 * n).
    { intros n s v Hn Hs Hv; apply Rabs_le_inv in Hv.
      assert (2 * n * ulp64 <= / 1000).
      { apply Rle_trans with (2 := U40); apply Rmult_le_compat_r; lra. }
      assert (2 * n * ulp64 * s <= / 1000 * s) by (apply Rmult_le_compat_r; lra); lra. }
    pose proof (K n1 s1 _ ltac:(lra) ltac:(lra) Ea) as Va; pose proof (K n2 s2 _ ltac:(lra) ltac:(lra) Eb) as Vb.
    destruct (add64 a b Fa Fb) as (F & V).
    { apply rnd_safe with 42%Z; [lia|]; replace (bpow radix2 42) with (2 ^ 42) by (rewrite bpow_powerRZ; reflexivity).
      apply Rabs_le; split; [|lra]; assert (0 < 2 ^ 42) by (apply pow_lt; lra); lra. }
    split; [exact F|split; [rewrite V; apply rnd_nonneg; lra|]].
    assert (NE : forall l : list PrimFloat.float, l = [] \/ 1 <= INR (length l)).
    { intros [|x l]; [left; reflexivity|right]; cbn [length]; rewrite S_INR; pose proof (pos_INR (length l)); lra. }
    destruct (NE l1) as [E1|E1].
    { assert (N1 : n1 = 0) by (unfold n1; rewrite E1; reflexivity); assert (Q1 : s1 = 0) by (unfold s1; rewrite E1; reflexivity).
      assert (A0 : value a = 0).
      { rewrite N1, Q1 in Ea; rewrite Rmult_0_r in Ea; apply Rabs_le_inv in Ea; lra. }
      rewrite V, A0, Rplus_0_l, rnd_fmt, N1, Q1, !Rplus_0_l by apply value_fmt; exact Eb. }
    destruct (NE l2) as [E2|E2].
    { assert (N2 : n2 = 0) by (unfold n2; rewrite E2; reflexivity); assert (Q2 : s2 = 0) by (unfold s2; rewrite E2; reflexivity).
      assert (B0 : value b = 0).
      { rewrite N2, Q2 in Eb; rewrite Rmult_0_r in Eb; apply Rabs_le_inv in Eb; lra. }
      rewrite V, B0, Rplus_0_r, rnd_fmt, N2, Q2, !Rplus_0_r by apply value_fmt; exact Ea. }
    fold n1 in E1; fold n2 in E2.
    destruct (rnd_add_err _ _ (value_fmt a) (value_fmt b)) as (e & He & E); rewrite V, E; clear V E F.
    replace ((value a + value b) * (1 + e) - (s1 + s2)) with ((1 + e) * ((value a - s1) + (value b - s2)) + e * (s1 + s2)) by ring.
    set (N := n1 + n2) in *.
    assert (U1 : 2 * N * ulp64 <= / 1000) by (apply Rle_trans with (2 := U40); apply Rmult_le_compat_r; lra).
    assert (D : Rabs ((value a - s1) + (value b - s2)) <= 2 * (N - 1) * ulp64 * (s1 + s2)).
    { apply Rle_trans with (1 := Rabs_triang _ _); rewrite Rmult_plus_distr_l; apply Rplus_le_compat.
      - apply Rle_trans with (1 := Ea); apply Rmult_le_compat_r; [lra|]; apply Rmult_le_compat_r; unfold N; lra.
      - apply Rle_trans with (1 := Eb); apply Rmult_le_compat_r; [lra|]; apply Rmult_le_compat_r; unfold N; lra. }
    apply Rle_trans with (1 := Rabs_triang _ _); rewrite !Rabs_mult, (Rabs_right (s1 + s2)) by lra.
    apply Rle_trans with ((1 + ulp64) * (2 * (N - 1) * ulp64 * (s1 + s2)) + ulp64 * (s1 + s2)).
    + apply Rplus_le_compat; [|apply Rmult_le_compat_r; lra].
      apply Rmult_le_compat; try apply Rabs_pos; [|exact D].
      apply Rle_trans with (1 := Rabs_triang _ _); rewrite Rabs_R1; lra.
    + replace ((1 + ulp64) * (2 * (N - 1) * ulp64 * (s1 + s2)) + ulp64 * (s1 + s2))
        with (((1 + ulp64) * (2 * (N - 1) * ulp64) + ulp64) * (s1 + s2)) by ring.
      apply Rmult_le_compat_r; [lra|].
      assert (ulp64 * (2 * N * ulp64) <= ulp64 * / 1000) by (apply Rmult_le_compat_l; lra).
      assert (0 <= ulp64 * ulp64) by nra.
      replace ((1 + ulp64) * (2 * (N - 1) * ulp64) + ulp64) with (2 * N * ulp64 + ulp64 * (2 * N * ulp64) - 2 * (ulp64 * ulp64) - ulp64) by ring.
      lra.
  - assert (LP : length l = length l') by (apply Permutation_length; exact HP).
    rewrite <- (rsum_perm _ _ HP), <- LP.
    apply IH; [|rewrite LP; exact HL].
    eapply Permutation_Forall; [apply Permutation_sym; exact HP|exact HS].
Qed.

Lemma nsum_added (l : list Binary64) : added64 l (nsum l).
Proof.
  induction l as [|x l IH] using rev_ind; [exact added_nil|].
  unfold nsum; rewrite fold_left_app; cbn [fold_left].
  exact (added_app l [x] (nsum l) x IH (added_one x)).
Qed.

(** ** A row of the matrix *)
Definition entry64 (be t : R) (y : PrimFloat.float) (b : R) : Prop :=
  finite64 y /\ 0 <= value y /\ 0 <= b <= 1 /\ (b = 0 -> value y = 0) /\ Rabs (value y - b) <= be * b + t.
Definition lsum (l : list R) : R := fold_right Rplus 0 l.

Lemma entry_small be t y b : 0 <= be -> be + t <= 1 -> entry64 be t y b -> small64 y.
Proof.
  intros Hb Hbt (F & V & B & _ & E); split; [exact F|].
  apply Rabs_le_inv in E; assert (be * b <= be * 1) by (apply Rmult_le_compat_l; lra); lra.
Qed.
Lemma row_near be t ys bs : Forall2 (entry64 be t) ys bs -> Rabs (rsum ys - lsum bs) <= be * lsum bs + INR (length ys) * t.
Proof.
  induction 1 as [|y b ys bs (_ & _ & _ & _ & E) H IH].
  - cbn; rewrite Rminus_0_r, Rabs_R0; lra.
  - cbn [rsum length]; change (lsum (b :: bs)) with (b + lsum bs); rewrite S_INR.
    replace (value y + rsum ys - (b + lsum bs)) with ((value y - b) + (rsum ys - lsum bs)) by ring.
    apply Rle_trans with (1 := Rabs_triang _ _); lra.
Qed.
Lemma entries_small be t ys bs : 0 <= be -> be + t <= 1 -> Forall2 (entry64 be t) ys bs -> Forall small64 ys.
Proof. intros H1 H2; induction 1; constructor; [eapply entry_small; eassumption|assumption]. Qed.
Lemma entries_zero be t ys bs : Forall2 (entry64 be t) ys bs -> Forall (fun b => b = 0) bs -> rsum ys = 0.
Proof.
  induction 1 as [|y b ys bs (_ & _ & _ & Z & _) H IH]; intros HB; [reflexivity|].
  inversion HB as [|? ? E HB']; subst; cbn [rsum]; rewrite Z, IH by auto; ring.
Qed.

(** Sizes up to 2^30 keep everything within 1.3e-6. *)
Definition unity64 : R := 13 / 10000000.
Lemma ulp64_23 : 2 ^ 30 * ulp64 = / 2 ^ 23.
Proof. unfold ulp64; replace (2 ^ 53) with (2 ^ 30 * 2 ^ 23) by (rewrite <- pow_add; f_equal); field; split; apply pow_nonzero; lra. Qed.

Lemma row_total be t ys bs a : INR (length ys) <= 2 ^ 30 -> 0 <= be <= 8 * 2 ^ 30 * ulp64 -> 0 <= t -> INR (length ys) * t <= / 2 ^ 60 ->
  t <= / 2 -> Forall2 (entry64 be t) ys bs -> added64 ys a ->
  finite64 a /\ 0 <= value a /\ (lsum bs = 1 -> Rabs (value a - 1) <= unity64) /\
  (Forall (fun b => b = 0) bs -> value a = 0).
Proof.
  intros Hn Hbe Ht Hnt Ht2 HE HA; pose proof ulp64_small as Hu; pose proof ulp64_23 as U23.
  assert (B23 : 8 * 2 ^ 30 * ulp64 = 8 * / 2 ^ 23) by (rewrite <- U23; ring).
  rewrite B23 in Hbe.
  assert (HS : Forall small64 ys) by (apply (entries_small be t ys bs); [lra|lra|exact HE]).
  assert (L40 : INR (length ys) <= 2 ^ 40) by lra.
  destruct (added_bound ys a HA HS L40) as (F & B & E).
  split; [exact F|split; [exact B|split]].
  - intros H1; pose proof (row_near be t ys bs HE) as N; rewrite H1 in N.
    apply Rabs_le_inv in N; apply Rabs_le_inv in E.
    pose proof (pos_INR (length ys)) as P; set (n := INR (length ys)) in *.
    assert (n * ulp64 <= / 2 ^ 23) by (rewrite <- U23; apply Rmult_le_compat_r; lra).
    assert (0 <= n * ulp64) by (apply Rmult_le_pos; lra).
    assert (2 * n * ulp64 * rsum ys <= 2 * n * ulp64 * (1 + be + / 2 ^ 60)) by (apply Rmult_le_compat_l; lra).
    assert (2 * n * ulp64 * (1 + be + / 2 ^ 60) <= 2 * / 2 ^ 23 * (1001/1000)) by (apply Rmult_le_compat; lra).
    unfold unity64; apply Rabs_le; lra.
  - intros H0; pose proof (entries_zero be t ys bs HE H0) as Z; rewrite Z, Rmult_0_r, Rminus_0_r in E.
    apply Rabs_le_inv in E; lra.
Qed.

(** ** All rows *)
Definition rowsum64 (R : PrimFloat.float) (stray : bool) : Prop :=
  finite64 R /\ 0 <= value R /\ if stray then value R = 0 else Rabs (value R - 1) <= unity64.
Definition strays (l : list bool) : nat := length (filter (fun b => b) l).
Lemma rows_near Rs fl : Forall2 rowsum64 Rs fl ->
  Rabs (rsum Rs - (INR (length Rs) - INR (strays fl))) <= unity64 * (INR (length Rs) - INR (strays fl)) /\
  Forall small64 Rs /\ INR (strays fl) <= INR (length Rs).
Proof.
  induction 1 as [|y b Rs fl (F & B & E) H (IH & HS & HL)].
  - cbn; repeat split; [|constructor|lra]; rewrite Rminus_0_r, Rminus_0_r, Rabs_R0; unfold unity64; lra.
  - cbn [rsum length]; rewrite S_INR; unfold strays in *; cbn [filter]; destruct b; cbn [length]; rewrite ?S_INR.
    + split; [|split; [constructor; [split; [exact F|lra]|exact HS]|lra]].
      rewrite E, Rplus_0_l; replace (INR (length Rs) + 1 - (INR (length (filter (fun b => b) fl)) + 1)) with (INR (length Rs) - INR (length (filter (fun b => b) fl))) by ring; exact IH.
    + split; [|split; [constructor; [|exact HS]|lra]].
      * replace (value y + rsum Rs - (INR (length Rs) + 1 - INR (length (filter (fun b => b) fl))))
          with ((value y - 1) + (rsum Rs - (INR (length Rs) - INR (length (filter (fun b => b) fl))))) by ring.
        apply Rle_trans with (1 := Rabs_triang _ _); lra.
      * split; [exact F|]; apply Rabs_le_inv in E; unfold unity64 in E; lra.
Qed.

Lemma unity_decided Rs fl (T : Binary64) : Forall2 rowsum64 Rs fl -> added64 Rs T -> INR (length Rs) <= 2 ^ 30 ->
  (INR (strays fl) <= 8/1000000 * INR (length Rs) -> isclose T (ofZ (Z.of_nat (length Rs)) : Binary64) = true) /\
  (12/1000000 * INR (length Rs) < INR (strays fl) -> isclose T (ofZ (Z.of_nat (length Rs)) : Binary64) = false).
Proof.
  intros HF HA HL; destruct (rows_near Rs fl HF) as (N & HS & Hs).
  pose proof ulp64_23 as U23; pose proof ulp64_small as Hu.
  destruct (added_bound Rs T HA HS ltac:(lra)) as (FT & BT & ET).
  assert (HZ : (Z.abs (Z.of_nat (length Rs)) < 2 ^ 53)%Z).
  { rewrite Z.abs_eq by lia; apply lt_IZR; rewrite <- INR_IZR_INZ.
    apply Rle_lt_trans with (1 := HL); change (2 ^ 53)%Z with 9007199254740992%Z; lra. }
  destruct (ofZ64 _ HZ) as (Fm & Vm); rewrite <- INR_IZR_INZ in Vm.
  set (m := INR (length Rs)) in *; set (s := INR (strays fl)) in *.
  pose proof (pos_INR (length Rs)) as Hm; fold m in Hm; pose proof (pos_INR (strays fl)) as Hs0; fold s in Hs0.
  assert (D : Rabs (value T - (m - s)) <= 16/10000000 * m).
  { apply Rabs_le_inv in N; apply Rabs_le_inv in ET; unfold unity64 in N.
    assert (0 <= m * ulp64 <= / 2 ^ 23) by (split; [apply Rmult_le_pos; lra|rewrite <- U23; apply Rmult_le_compat_r; lra]).
    assert (0 <= rsum Rs) by apply (rsum_bound Rs HS).
    assert (2 * m * ulp64 * rsum Rs <= 2 * / 2 ^ 23 * (1001/1000 * m)) by (apply Rmult_le_compat; lra).
    apply Rabs_le; lra. }
  assert (P1000 : 2 ^ 31 <= bpow radix2 1000).
  { replace (2 ^ 31) with (bpow radix2 31) by (rewrite bpow_powerRZ; reflexivity); apply bpow_le; lia. }
  destruct lit5_ok as (F5 & V5).
  apply Rabs_le_inv in D.
  destruct (isclose64 (lit_1em5 : Binary64) T (ofZ (Z.of_nat (length Rs)) : Binary64) (1 / 100000) F5 ltac:(lra) V5 FT Fm) as (C1 & C2).
  { rewrite Rabs_right by lra; lra. }
  { rewrite Vm, Rabs_right by lra; lra. }
  rewrite Vm in C1, C2; rewrite (Rabs_right m) in C1, C2 by lra.
  set (Tl := 1 / 100000000 + 1 / 100000 * m) in *.
  assert (HTl : 0 <= Tl) by (unfold Tl; lra).
  assert (H8 : 8 * ulp64 * Tl <= / 1000 * Tl).
  { apply Rmult_le_compat_r; [exact HTl|].
    assert (ulp64 <= / 2 ^ 23).
    { rewrite <- U23; assert (1 <= 2 ^ 30) by lra; apply Rle_trans with (1 * ulp64); [lra|apply Rmult_le_compat_r; lra]. }
    lra. }
  split; intros H.
  - apply C1; apply Rle_trans with (98/100 * Tl); [|lra]; unfold Tl; apply Rabs_le; lra.
  - apply C2; apply Rle_lt_trans with (1001/1000 * Tl); [lra|].
    assert (M1 : 1 <= m).
    { unfold m; destruct Rs as [|y Rs]; [exfalso; cbn in *; unfold m in *; cbn in *; lra|cbn [length]; rewrite S_INR; pose proof (pos_INR (length Rs)); lra]. }
    rewrite Rabs_left by lra; unfold Tl; lra.
Qed.
