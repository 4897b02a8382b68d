(** Dot products and curve evaluation (model: ModelCurve.v) on binary64 numbers. *)
From Coq Require Import Reals Lra Lia ZArith List Floats.
From Flocq Require Import Core.Core.
From Verif Require Import Py PyLemmas Num ModelKnots ModelBasis ModelCurve Spec SpecB64 MathCox MathKnots MathJoin
  ProofNum ProofBasis ProofSpan ProofCurve ProofB64 ProofB64Basis ProofB64Span.
Import ListNotations.
Open Scope R_scope.

(** ** Sums from left to right *)
Definition sumR (l : list R) : R := fold_right Rplus 0 l.
Definition sumabs (l : list R) : R := fold_right Rplus 0 (map Rabs l).
Definition grow (n : nat) : R := (1 + ulp64) ^ n - 1.

Lemma grow_S n : grow (S n) = grow n * (1 + ulp64) + ulp64.
Proof. unfold grow; cbn [pow]; ring. Qed.
Lemma grow_nonneg n : 0 <= grow n.
Proof.
  pose proof ulp64_pos; induction n as [|n IH]; [unfold grow; cbn; lra|rewrite grow_S].
  apply Rplus_le_le_0_compat; [apply Rmult_le_pos|]; lra.
Qed.
Lemma ulp64_tiny : ulp64 * 2 ^ 53 = 1.
Proof. unfold ulp64; apply Rinv_l; apply pow_nonzero; lra. Qed.
Lemma grow_bound n : INR n <= 2 ^ 41 -> grow n <= 11/10 * INR n * ulp64.
Proof.
  intros Hn; pose proof ulp64_pos as Hu; pose proof ulp64_tiny as Ht.
  assert (B : forall m, (m <= n)%nat -> grow m <= 11/10 * INR m * ulp64); [|apply B; lia].
  assert (Hnu : INR n * ulp64 <= / 4096).
  { apply Rle_trans with (2 ^ 41 * ulp64); [apply Rmult_le_compat_r; lra|].
    replace (2 ^ 53) with (2 ^ 41 * 4096) in Ht by (cbn [pow]; ring).
    apply Rmult_le_reg_r with 4096; [lra|]; rewrite Rinv_l by lra; lra. }
  induction m as [|m IH]; intros Hm; [unfold grow; cbn [pow INR]; lra|].
  rewrite grow_S; specialize (IH ltac:(lia)); rewrite S_INR.
  assert (Hm2 : INR m * ulp64 <= / 4096).
  { apply Rle_trans with (INR n * ulp64); [apply Rmult_le_compat_r; [lra|apply le_INR; lia]|exact Hnu]. }
  assert (grow m * ulp64 <= / 11 * ulp64).
  { apply Rmult_le_compat_r; lra. }
  lra.
Qed.

Lemma sum64 (l : list PrimFloat.float) : forall (acc : PrimFloat.float) k S A,
  Forall finite64 l -> finite64 acc -> Rabs S + sumabs (values l) <= A -> A <= 2 ^ 1000 ->
  grow (k + length l) <= 1 -> Rabs (value acc - S) <= grow k * A ->
  finite64 (fold_left PrimFloat.add l acc) /\
  Rabs (value (fold_left PrimFloat.add l acc) - (S + sumR (values l))) <= grow (k + length l) * A.
Proof.
  pose proof ulp64_pos as Hu; pose proof ulp64_small as Hu2.
  induction l as [|t l IH]; intros acc k S A Fl Fa HA HA2 HG HE.
  - cbn [fold_left values map sumR fold_right length] in *; rewrite Nat.add_0_r, Rplus_0_r; split; assumption.
  - inversion Fl as [|? ? Ft Fl']; subst.
    cbn [fold_left values map length] in *; fold (values l) in *.
    unfold sumabs in HA; cbn [map fold_right] in HA; fold (sumabs (values l)) in HA.
    assert (SA : 0 <= sumabs (values l)).
    { unfold sumabs; generalize (values l); intros v; induction v as [|y v IHv]; cbn; [lra|pose proof (Rabs_pos y); lra]. }
    assert (Gk : grow k <= 1 /\ 0 <= grow k).
    { split; [|apply grow_nonneg]; apply Rle_trans with (grow (k + Datatypes.S (length l))); [|exact HG].
      unfold grow; apply Rplus_le_compat_r, Rle_pow; [lra|lia]. }
    pose proof (Rabs_pos S); pose proof (Rabs_pos (value t)).
    assert (A0 : 0 <= A) by lra.
    assert (BS : Rabs (value acc) <= 2 * A).
    { replace (value acc) with (S + (value acc - S)) by ring; eapply Rle_trans; [apply Rabs_triang|].
      assert (grow k * A <= 1 * A) by (apply Rmult_le_compat_r; lra); lra. }
    assert (P1000 : bpow radix2 1002 = 4 * 2 ^ 1000).
    { replace 4 with (bpow radix2 2) by (cbn; lra). replace (2 ^ 1000) with (bpow radix2 1000) by (rewrite bpow_powerRZ; reflexivity).
      rewrite <- bpow_plus; reflexivity. }
    destruct (add64 acc t Fa Ft) as (Fs & Vs).
    { apply rnd_safe with 1002%Z; [lia|]; rewrite P1000; eapply Rle_trans; [apply Rabs_triang|]; lra. }
    destruct (rnd_add_err (value acc) (value t) (value_fmt acc) (value_fmt t)) as (d & Hd & Ed); rewrite Ed in Vs.
    assert (ST : Rabs (S + value t) <= A) by (eapply Rle_trans; [apply Rabs_triang|]; lra).
    destruct (IH (acc + t)%float (Datatypes.S k) (S + value t) A) as (F & E); try assumption.
    + eapply Rle_trans; [apply Rplus_le_compat_r; apply Rabs_triang|]; lra.
    + rewrite Nat.add_succ_comm; exact HG.
    + rewrite Vs, grow_S.
      replace ((value acc + value t) * (1 + d) - (S + value t)) with ((value acc - S) * (1 + d) + (S + value t) * d) by ring.
      eapply Rle_trans; [apply Rabs_triang|]; rewrite !Rabs_mult.
      assert (D1 : Rabs (1 + d) <= 1 + ulp64) by (eapply Rle_trans; [apply Rabs_triang|]; rewrite Rabs_R1; lra).
      assert (Rabs (value acc - S) * Rabs (1 + d) <= grow k * A * (1 + ulp64)) by (apply Rmult_le_compat; try assumption; apply Rabs_pos).
      assert (Rabs (S + value t) * Rabs d <= A * ulp64) by (apply Rmult_le_compat; try assumption; apply Rabs_pos).
      lra.
    + split; [exact F|]; rewrite Nat.add_succ_comm in E.
      unfold sumR in *; cbn [fold_right]; rewrite Rplus_assoc in E; exact E.
Qed.

(** ** Products of weights and values *)
Lemma prods64 M (a b : list PrimFloat.float) : 0 <= M <= 2 ^ 900 ->
  Forall (fun x => finite64 x /\ 0 <= value x <= 2) a -> within (- M) M b -> length a = length b ->
  let t := map (fun xy => PrimFloat.mul (fst xy) (snd xy)) (combine a b) in
  let W := sumR (values a) in
  Forall finite64 t /\ length t = length a /\
  sumabs (values t) <= (1 + ulp64) * W * M + INR (length a) * eta64 /\
  Rabs (sumR (values t) - rdot (values a) (values b)) <= ulp64 * W * M + INR (length a) * eta64.
Proof.
  intros HM; pose proof ulp64_pos as Hu; pose proof ulp64_small as Hu2; pose proof eta64_pos as He.
  revert b; induction a as [|x a IH]; intros b Fa Fb Hl; destruct b as [|y b]; try discriminate Hl.
  - cbn; repeat split; try constructor; unfold sumabs; cbn; try rewrite Rminus_0_r, Rabs_R0; lra.
  - inversion Fa as [|? ? (Fx & Hx) Fa']; inversion Fb as [|? ? (Fy & Hy) Fb']; subst.
    injection Hl as Hl; specialize (IH b Fa' Fb' Hl); cbv zeta in IH |- *.
    cbn [combine map values length fst snd] in *; fold (values a) (values b) in *.
    destruct IH as (F & L & S1 & S2).
    assert (AY : Rabs (value y) <= M) by (apply Rabs_le; lra).
    assert (AX : Rabs (value x) = value x) by (apply Rabs_right; lra).
    assert (XY : Rabs (value x * value y) <= value x * M) by (rewrite Rabs_mult, AX; apply Rmult_le_compat_l; lra).
    destruct (mul64 x y Fx Fy) as (Fm & Vm).
    { apply rnd_safe with 901%Z; [lia|].
      replace (bpow radix2 901) with (2 * 2 ^ 900).
      - eapply Rle_trans; [exact XY|]; apply Rmult_le_compat; lra.
      - replace (2 ^ 900) with (bpow radix2 900) by (rewrite bpow_powerRZ; reflexivity).
        change 2 with (bpow radix2 1); rewrite <- bpow_plus; reflexivity. }
    destruct (rnd_err (value x * value y)) as (e & h & Ee & Eh & Er); rewrite Er in Vm.
    assert (D : Rabs (value (x * y)%float - value x * value y) <= ulp64 * (value x * M) + eta64).
    { rewrite Vm; replace (value x * value y * (1 + e) + h - value x * value y) with (value x * value y * e + h) by ring.
      eapply Rle_trans; [apply Rabs_triang|]; apply Rplus_le_compat; [|exact Eh].
      rewrite Rabs_mult, Rmult_comm; apply Rmult_le_compat; try assumption; apply Rabs_pos. }
    split; [constructor; assumption|]; split; [f_equal; exact L|].
    rewrite S_INR; unfold sumabs, sumR, rdot, values in *; cbn [map fold_right combine fst snd] in *.
    split.
    + replace (value (x * y)%float) with (value x * value y + (value (x * y)%float - value x * value y)) by ring.
      pose proof (Rabs_triang (value x * value y) (value (x * y)%float - value x * value y)); lra.
    + match goal with |- Rabs (?v + ?s - (?w + ?r)) <= _ =>
        replace (v + s - (w + r)) with ((v - w) + (s - r)) by ring end.
      eapply Rle_trans; [apply Rabs_triang|]; lra.
Qed.

Lemma rdot_error a a' b M : length a = length a' -> length a = length b -> Forall (fun y => Rabs y <= M) b -> 
  Rabs (rdot a b - rdot a' b) <= error1 a a' * M.
Proof.
  revert a' b; induction a as [|x a IH]; intros [|x' a'] [|y b] L1 L2 HB; try discriminate.
  - cbn; rewrite Rminus_0_r, Rabs_R0; lra.
  - inversion HB as [|? ? Hy HB']; subst; injection L1 as L1; injection L2 as L2.
    unfold rdot in *; cbn [combine map fold_right fst snd error1].
    match goal with |- Rabs (x * y + ?s - (x' * y + ?r)) <= _ =>
      replace (x * y + s - (x' * y + r)) with ((x - x') * y + (s - r)) by ring end.
    eapply Rle_trans; [apply Rabs_triang|]; rewrite Rmult_plus_distr_r; apply Rplus_le_compat; [|apply IH; assumption].
    rewrite Rabs_mult; apply Rmult_le_compat_l; [apply Rabs_pos|exact Hy].
Qed.
Lemma sumR_error a a' : length a = length a' -> Rabs (sumR a - sumR a') <= error1 a a'.
Proof.
  revert a'; induction a as [|x a IH]; intros [|x' a'] L; try discriminate; cbn; [rewrite Rminus_0_r, Rabs_R0; lra|].
  injection L as L; specialize (IH _ L); unfold sumR in IH.
  match goal with |- Rabs (x + ?s - (x' + ?r)) <= _ => replace (x + s - (x' + r)) with ((x - x') + (s - r)) by ring end.
  eapply Rle_trans; [apply Rabs_triang|]; lra.
Qed.

Lemma matmul_dot (K : Num) (a b : list K) : length a = length b -> matmul11 a b = Ok (vdot a b).
Proof. intros L; unfold matmul11, zlen; rewrite L, Z.eqb_refl; reflexivity. Qed.

(** Weighted mean of doubles with approximate weights [a] of the exact weights [w]. *)
Lemma mean64 M (a b : list PrimFloat.float) w k : 0 <= M <= 2 ^ 900 -> INR (length a) <= 2 ^ 41 ->
  Forall (fun x => finite64 x /\ 0 <= value x) a -> within (- M) M b -> length a = length b -> length a = length w ->
  sumR w = 1 -> error1 (values a) w <= k * ulp64 -> 0 <= k <= 2 ^ 44 ->
  matmul11 (a : list Binary64) b = Ok (vdot (a : list Binary64) b) /\
  finite64 (vdot (a : list Binary64) b) /\
  Rabs (value (vdot (a : list Binary64) b) - rdot w (values b)) <= (2 * INR (length a) + k + 2) * (ulp64 * M + eta64).
Proof.
  intros HM HN Fa Fb L1 L2 HW HE Hk.
  pose proof ulp64_pos as Hu; pose proof ulp64_tiny as Ht; pose proof eta64_pos as He.
  split.
  { exact (matmul_dot Binary64 a b L1). }
  assert (KU : k * ulp64 <= / 512).
  { apply Rle_trans with (2 ^ 44 * ulp64); [apply Rmult_le_compat_r; lra|].
    replace (2 ^ 53) with (2 ^ 44 * 512) in Ht by (cbn [pow]; ring).
    apply Rmult_le_reg_r with 512; [lra|]; rewrite Rinv_l by lra; lra. }
  set (n := length a) in *.
  assert (NU : INR n * ulp64 <= / 4096).
  { apply Rle_trans with (2 ^ 41 * ulp64); [apply Rmult_le_compat_r; lra|].
    replace (2 ^ 53) with (2 ^ 41 * 4096) in Ht by (cbn [pow]; ring).
    apply Rmult_le_reg_r with 4096; [lra|]; rewrite Rinv_l by lra; lra. }
  assert (L2' : length (values a) = length w) by (unfold values; rewrite map_length; exact L2).
  assert (SW : Rabs (sumR (values a) - 1) <= / 512).
  { rewrite <- HW; eapply Rle_trans; [apply sumR_error; exact L2'|]; lra. }
  apply Rabs_le_inv in SW.
  assert (Fa2 : Forall (fun x => finite64 x /\ 0 <= value x <= 2) a).
  { assert (T : forall l, Forall (fun x => finite64 x /\ 0 <= value x) l -> 0 <= sumR (values l) /\
      Forall (fun x => finite64 x /\ 0 <= value x <= sumR (values l)) l).
    { induction l as [|x l IH]; intros F; [split; [cbn; lra|constructor]|].
      inversion F as [|? ? (F1 & F2) F3]; subst; destruct (IH F3) as (I1 & I2).
      cbn [values map sumR fold_right]; fold (values l) (sumR (values l)); split; [lra|].
      constructor; [split; [assumption|lra]|]; eapply Forall_impl; [|exact I2]; intros y (Y1 & Y2); split; [exact Y1|lra]. }
    destruct (T a Fa) as (_ & F); eapply Forall_impl; [|exact F]; intros y (Y1 & Y2); split; [exact Y1|lra]. }
  destruct (prods64 M a b HM Fa2 Fb L1) as (Ft & Lt & S1 & S2); fold n in Lt, S1, S2.
  set (t := map _ _) in *; set (W := sumR (values a)) in *.
  set (A := (1 + ulp64) * W * M + INR n * eta64) in *.
  assert (U5 : ulp64 <= / 4096).
  { destruct (Nat.eq_dec n 0) as [Z0|Z0].
    - unfold ulp64; apply Rinv_le_contravar; [lra|cbn [pow]; lra].
    - assert (1 <= INR n) by (change 1 with (INR 1); apply le_INR; lia).
      apply Rle_trans with (INR n * ulp64); [|exact NU]; rewrite <- (Rmult_1_l ulp64) at 1; apply Rmult_le_compat_r; lra. }
  assert (N0 : 0 <= INR n) by apply pos_INR.
  assert (HWM : 0 <= W * M <= 11/10 * M) by (split; [apply Rmult_le_pos; lra|apply Rmult_le_compat_r; lra]).
  assert (UWM : ulp64 * (W * M) <= / 4096 * (W * M)) by (apply Rmult_le_compat_r; lra).
  assert (UM0 : 0 <= ulp64 * M) by (apply Rmult_le_pos; lra).
  assert (NE : INR n * eta64 <= 1).
  { apply Rle_trans with (INR n * ulp64); [|lra]; apply Rmult_le_compat_l; [exact N0|].
    pose proof eta_ulp as EU; assert (1 <= 2 ^ 100) by (apply pow_R1_Rle; lra).
    apply Rle_trans with (eta64 * 2 ^ 100); [|exact EU]; rewrite <- (Rmult_1_r eta64) at 1; apply Rmult_le_compat_l; lra. }
  assert (P0 : 1 <= 2 ^ 900) by (apply pow_R1_Rle; lra).
  assert (P1 : 4 * 2 ^ 900 <= 2 ^ 1000).
  { replace (2 ^ 1000) with (2 ^ 900 * 2 ^ 100) by (rewrite <- pow_add; reflexivity).
    assert (4 <= 2 ^ 100) by (replace (2 ^ 100) with (4 * 2 ^ 98) by (change 4 with (2 * 2); rewrite Rmult_assoc; reflexivity);
      assert (1 <= 2 ^ 98) by (apply pow_R1_Rle; lra); lra).
    rewrite (Rmult_comm 4); apply Rmult_le_compat_l; lra. }
  assert (AM : A <= 12/10 * M + INR n * eta64) by (unfold A; lra).
  assert (A0 : 0 <= A) by (unfold A; pose proof (Rmult_le_pos _ _ N0 (Rlt_le _ _ He)); pose proof (Rmult_le_pos _ _ (Rlt_le _ _ Hu) (proj1 HWM)); lra).
  pose proof (grow_bound n HN) as GB.
  destruct (sum64 t 0%float 0 0 A Ft finite_0) as (F & E).
  { rewrite Rabs_R0; lra. }
  { lra. }
  { rewrite Lt; cbn [plus]; lra. }
  { change (value 0%float) with (value (0%num : Binary64)); rewrite value_0, Rminus_0_r, Rabs_R0; unfold grow; cbn [pow]; lra. }
  rewrite Lt in E; cbn [plus] in E; rewrite Rplus_0_l in E.
  change (vdot (a : list Binary64) b) with (fold_left PrimFloat.add t 0%float).
  split; [exact F|].
  assert (HB : Forall (fun y => Rabs y <= M) (values b)).
  { unfold values; apply Forall_map; eapply Forall_impl; [|exact Fb]; intros y (_ & Y); apply Rabs_le; exact Y. }
  assert (E3 : Rabs (rdot (values a) (values b) - rdot w (values b)) <= k * ulp64 * M).
  { eapply Rle_trans; [apply rdot_error; [exact L2'|unfold values; rewrite !map_length; exact L1|exact HB]|].
    apply Rmult_le_compat_r; lra. }
  match goal with |- Rabs (?x - ?y) <= _ =>
    replace (x - y) with ((x - sumR (values t)) + ((sumR (values t) - rdot (values a) (values b)) + (rdot (values a) (values b) - y))) by ring end.
  eapply Rle_trans; [apply Rabs_triang|].
  pose proof (Rabs_triang (sumR (values t) - rdot (values a) (values b)) (rdot (values a) (values b) - rdot w (values b))).
  assert (E1 : grow n * A <= 11/10 * INR n * ulp64 * (12/10 * M + INR n * eta64)).
  { apply Rmult_le_compat; try assumption; apply grow_nonneg. }
  assert (NN : INR n * ulp64 * (INR n * eta64) <= / 4096 * (INR n * eta64)).
  { apply Rmult_le_compat_r; [apply Rmult_le_pos; lra|exact NU]. }
  assert (0 <= INR n * (ulp64 * M)) by (apply Rmult_le_pos; lra).
  assert (0 <= INR n * eta64) by (apply Rmult_le_pos; lra).
  assert (0 <= k * eta64) by (apply Rmult_le_pos; lra).
  assert (ulp64 * (W * M) <= ulp64 * (11/10 * M)) by (apply Rmult_le_compat_l; lra).
  replace (11/10 * INR n * ulp64 * (12/10 * M + INR n * eta64)) with (132/100 * (INR n * (ulp64 * M)) + 11/10 * (INR n * ulp64 * (INR n * eta64))) in E1 by field.
  replace ((2 * INR n + k + 2) * (ulp64 * M + eta64)) with
    (2 * (INR n * (ulp64 * M)) + k * ulp64 * M + 2 * (ulp64 * M) + 2 * (INR n * eta64) + k * eta64 + 2 * eta64) by ring.
  lra.
Qed.

(** ** Points of curves *)
Lemma tiny_eta : tiny64 = eta64.
Proof. unfold tiny64, eta64; rewrite bpow_powerRZ; reflexivity. Qed.

Definition column64 (P : list (list PrimFloat.float)) (a : Z) (m c : nat) : list PrimFloat.float :=
  tab m (fun i => nth c (nth (Z.to_nat (a + i)) P []) 0%float).

Lemma active_col_any {A} (P : list (list A)) (d : A) a m c : Forall (fun row => length row = 3%nat) P -> (0 <= a)%Z ->
  (a + Z.of_nat m <= len P)%Z -> (c < 3)%nat ->
  acol (slice P a (a + Z.of_nat m)) (Z.of_nat c) = Ok (tab m (fun i => nth c (nth (Z.to_nat (a + i)) P []) d)).
Proof.
  intros HF Ha Hm Hc; unfold len in Hm; rewrite (list_as_tab P []) at 1.
  rewrite slice_tab by lia; replace (Z.to_nat (a + Z.of_nat m - a)) with m by lia.
  apply mapM_tab; intros i Hi.
  assert (L : length (nth (Z.to_nat (a + i)) P []) = 3%nat).
  { rewrite Forall_forall in HF; apply HF, nth_In; lia. }
  rewrite (aget_nth _ _ d) by (unfold zlen; rewrite L; lia); rewrite Nat2Z.id; reflexivity.
Qed.

Lemma column_values P a m c : Forall (fun row => length row = 3%nat) P -> (0 <= a)%Z ->
  (a + Z.of_nat m <= len P)%Z -> (c < 3)%nat ->
  values (column64 P a m c) = tab m (fun i => nth (Z.to_nat (a + i)) (coords c (map values P)) 0).
Proof.
  intros HF Ha Hm Hc; unfold len in Hm; unfold values at 1; unfold column64; rewrite map_tab; apply tab_ext; intros i Hi.
  assert (L : length (nth (Z.to_nat (a + i)) P []) = 3%nat).
  { rewrite Forall_forall in HF; apply HF, nth_In; lia. }
  unfold coords; rewrite map_map.
  rewrite (nth_indep (map _ P) 0 (nth c (values []) 0)) by (rewrite map_length; lia).
  rewrite (map_nth (fun r => nth c (values r) 0) P []).
  unfold values; rewrite (nth_indep (map value _) 0 (value 0%float)) by (rewrite map_length; lia).
  rewrite map_nth; reflexivity.
Qed.

Lemma column_within M P a m c : Forall (fun row => length row = 3%nat /\ within (- M) M row) P -> (0 <= a)%Z ->
  (a + Z.of_nat m <= len P)%Z -> (c < 3)%nat -> within (- M) M (column64 P a m c).
Proof.
  intros HF Ha Hm Hc; unfold within, column64, len in *; apply Forall_forall; intros y Hy.
  unfold tab in Hy; rewrite in_map_iff in Hy; destruct Hy as (i & <- & Hi); apply in_seq in Hi.
  rewrite Forall_forall in HF; destruct (HF (nth (Z.to_nat (a + Z.of_nat i)) P [])) as (L & W); [apply nth_In; lia|].
  rewrite Forall_forall in W; apply W, nth_In; lia.
Qed.

Lemma pieces_sum U s p u : nondecreasing U -> kn U s < kn U (s + 1) -> sumR (pieces U s p u) = 1.
Proof.
  intros HU Hs; unfold sumR, pieces; rewrite fold_right_tab.
  pose proof (piece_unity U s p u HU Hs) as E; rewrite <- E.
  pose proof (zsum_shift 0 (s - Z.of_nat p) (S p) (fun i => piece U s p i u)) as Z0.
  rewrite Z.add_0_l in Z0; rewrite Z0; apply zsum_ext; intros i _; f_equal; lia.
Qed.

Section Point.
Variables (p : nat) (U : list PrimFloat.float) (P : list (list PrimFloat.float)) (x : Binary64) (s : Z) (M : R).
Hypothesis HW : within 0 1 U.
Hypothesis HU : nondecreasing (values U).
Hypothesis HL : len U = (len P + Z.of_nat p + 1)%Z.
Hypothesis HP : Forall (fun row => length row = 3%nat /\ within (- M) M row) P.
Hypothesis HM : 0 <= M <= 2 ^ 900.
Hypothesis Fx : finite64 x.
Hypothesis Hsp : find_span (len P) (Z.of_nat p) x U = Ok s.
Hypothesis Hs : (Z.of_nat p <= s < len P)%Z.
Hypothesis Hx : kn (values U) s <= value x <= kn (values U) (s + 1).
Hypothesis Hgap : / 2 ^ 1000 <= kn (values U) (s + 1) - kn (values U) s.
Hypothesis Hp : INR p <= 2 ^ 40.

Lemma curve_point_b64 : exists y, curve_point (K := Binary64) (Z.of_nat p) P U x = Ok y /\
  near64 (10 * INR (S p) * (ulp64 * M + tiny64)) y (span_xyz (values U) s p (map values P) (value x)).
Proof.
  assert (H3 : Forall (fun row => length row = 3%nat) P) by (eapply Forall_impl; [|exact HP]; intros r (L & _); exact L).
  assert (Hpos : 0 < / 2 ^ 1000) by (apply Rinv_0_lt_compat, pow_lt; lra).
  destruct (basis_functions_b64 U s x p HW HU Fx Hx Hgap) as (B & EB & LB & FB & ErB); try assumption; try lia.
  set (col c := column64 P (s - Z.of_nat p) (S p) c).
  assert (HC : forall c, (c < 3)%nat ->
    acol (slice (P : list (list Binary64)) (s - Z.of_nat p) (s + 1)) (Z.of_nat c) = Ok (col c : list Binary64)).
  { intros c Hc; replace (s + 1)%Z with (s - Z.of_nat p + Z.of_nat (S p))%Z by lia.
    apply (active_col_any (P : list (list Binary64)) (0%float : Binary64)); try assumption; try lia; change (len P) with (len (P : list (list PrimFloat.float))) in *; lia. }
  assert (LC : forall c, length (col c) = S p) by (intros c; unfold col, column64; apply tab_length).
  assert (HD : forall c, (c < 3)%nat -> let v := vdot (B : list Binary64) (col c) in
    matmul11 (B : list Binary64) (col c) = Ok v /\ finite64 v /\
    Rabs (value v - span_sum (values U) s p (coords c (map values P)) (value x)) <= 10 * INR (S p) * (ulp64 * M + tiny64)).
  { intros c Hc; cbv zeta.
    destruct (mean64 M B (col c) (pieces (values U) s p (value x)) (8 * INR p)) as (E1 & E2 & E3); try assumption.
    - rewrite LB, S_INR; apply Rle_trans with (2 ^ 40 + 1); [lra|cbn [pow]; lra].
    - apply column_within; try assumption; lia.
    - rewrite LB, LC; reflexivity.
    - rewrite LB; unfold pieces; rewrite tab_length; reflexivity.
    - apply pieces_sum; [exact HU|lra].
    - split; [pose proof (pos_INR p); lra|]; apply Rle_trans with (8 * 2 ^ 40); [lra|cbn [pow]; lra].
    - split; [exact E1|]; split; [exact E2|].
      unfold col in E3 at 2; rewrite column_values in E3 by (try assumption; lia).
      rewrite span_sum_rdot in E3; eapply Rle_trans; [exact E3|]; rewrite tiny_eta.
      rewrite LB, S_INR; pose proof (pos_INR p); pose proof ulp64_pos; pose proof eta64_pos.
      apply Rmult_le_compat_r; [|lra].
      pose proof (Rmult_le_pos ulp64 M); lra. }
  destruct (HD 0%nat ltac:(lia)) as (X1 & X2 & X3); destruct (HD 1%nat ltac:(lia)) as (Y1 & Y2 & Y3);
    destruct (HD 2%nat ltac:(lia)) as (Z1 & Z2 & Z3).
  exists [vdot (B : list Binary64) (col 0%nat); vdot (B : list Binary64) (col 1%nat); vdot (B : list Binary64) (col 2%nat)].
  split.
  - unfold curve_point; change (zlen P) with (len P).
    transitivity (let* knot_span := find_span (len P) (Z.of_nat p) x U in
      let* basis_funs := basis_functions knot_span x (Z.of_nat p) U in
      let active := slice (P : list (list Binary64)) (knot_span - Z.of_nat p) (knot_span + 1) in
      let* cx := acol active (Z.of_nat 0) in let* vx := matmul11 basis_funs cx in
      let* cy := acol active (Z.of_nat 1) in let* vy := matmul11 basis_funs cy in
      let* cz := acol active (Z.of_nat 2) in let* vz := matmul11 basis_funs cz in Ok [vx; vy; vz]); [reflexivity|].
    rewrite Hsp; cbn [bind].
    match goal with |- bind ?b _ = _ => replace b with (Ok B : res (list Binary64)) by (symmetry; exact EB) end; cbn [bind].
    cbv zeta; rewrite (HC 0%nat) by lia; cbn [bind]; rewrite X1; cbn [bind].
    rewrite (HC 1%nat) by lia; cbn [bind]; rewrite Y1; cbn [bind].
    rewrite (HC 2%nat) by lia; cbn [bind]; rewrite Z1; reflexivity.
  - unfold near64, span_xyz; cbn [map].
    apply Forall2_cons; [split; assumption|]; apply Forall2_cons; [split; assumption|].
    apply Forall2_cons; [split; assumption|apply Forall2_nil].
Qed.
End Point.

Lemma validate64 (x : Binary64) : finite64 x -> 0 <= value x <= 1 -> validate_knot x = true.
Proof.
  intros Fx Hx; unfold validate_knot; apply andb_true_intro; split.
  - change (nleb (0%num : Binary64) x) with (PrimFloat.leb (0%num : Binary64) x); rewrite (leb64 (0%num : Binary64) x finite_0 Fx).
    apply Rle_bool_true; rewrite value_0; lra.
  - change (nleb x (1%num : Binary64)) with (PrimFloat.leb x (1%num : Binary64)); rewrite (leb64 x (1%num : Binary64) Fx finite_1).
    apply Rle_bool_true; rewrite value_1; lra.
Qed.

Lemma len_map {A B} (f : A -> B) l : len (map f l) = len l.
Proof. unfold len; rewrite map_length; reflexivity. Qed.

Lemma tol_bound : 101 / 100000000 + 8 * ulp64 * (101 / 100000000) <= 102 / 100000000.
Proof. pose proof ulp64_small; lra. Qed.

(** The span found on a knot vector with distinct knots over [0,1]. *)
Lemma find_span_strict64 p n (x : Binary64) (U : list PrimFloat.float) : within 0 1 U -> clamped p n (values U) ->
  kn (values U) p = 0 -> kn (values U) n = 1 -> finite64 x -> 0 <= value x <= 1 ->
  (1 - value x <= 102 / 100000000 -> kn (values U) (n - 1) <= value x) ->
  exists s, find_span n p x U = Ok s /\ (p <= s < n)%Z /\ kn (values U) s <= value x <= kn (values U) (s + 1).
Proof.
  intros HW HC H0 H1 Fx Hx Ht.
  destruct (find_span_b64 p n x U Fx (within_finite _ _ _ HW) (proj1 HC)) as (s & E & Hs & R0).
  - rewrite H0, H1; exact Hx.
  - assert (1 <= 2 ^ 1000) by (apply pow_R1_Rle; lra); rewrite Rabs_right by lra; lra.
  - assert (1 <= 2 ^ 1000) by (apply pow_R1_Rle; lra); rewrite H1, Rabs_R1; lra.
  - exists s; split; [exact E|]; split; [lia|].
    destruct R0 as [(-> & B)|(B & _)]; [|exact B].
    rewrite H1, Rabs_R1 in B; pose proof tol_bound.
    replace (n - 1 + 1)%Z with n by lia; rewrite H1; split; [apply Ht; lra|lra].
Qed.

Lemma single_point_b64 p (U : list PrimFloat.float) P d (x : Binary64) M :
  within 0 1 U -> clamped (Z.of_nat p) (len P) (values U) -> (1 <= p)%nat -> INR p <= 2 ^ 40 ->
  kn (values U) (Z.of_nat p) = 0 -> kn (values U) (len P) = 1 ->
  (forall i, (Z.of_nat p <= i < len P)%Z -> / 2 ^ 1000 <= kn (values U) (i + 1) - kn (values U) i) ->
  Forall (fun row => length row = 3%nat /\ within (- M) M row) P -> 0 <= M <= 2 ^ 900 ->
  finite64 x -> 0 <= value x <= 1 ->
  (1 - value x <= 102 / 100000000 -> kn (values U) (len P - 1) <= value x) ->
  exists y, single_point (mkCurve (K := Binary64) (Some (Z.of_nat p)) (Some P) (Some U) d) x = Ok y /\
    near64 (10 * INR (S p) * (ulp64 * M + tiny64)) y (curve_xyz (values U) p (map values P) (value x)).
Proof.
  intros HW HC Hp1 Hp H0 H1 Hgap HP HM Fx Hx Ht.
  assert (Hpos : 0 < / 2 ^ 1000) by (apply Rinv_0_lt_compat, pow_lt; lra).
  destruct (find_span_strict64 _ _ x U HW HC H0 H1 Fx Hx Ht) as (s & E & Hs & Hc).
  destruct HC as ((Hp0 & Hn & HL & HU) & HC2).
  destruct (curve_point_b64 p U P x s M HW HU) as (y & Ey & Ny); try assumption.
  - rewrite <- HL, len_values; reflexivity.
  - apply Hgap; exact Hs.
  - exists y; split.
    + unfold single_point; rewrite (validate64 x Fx Hx); exact Ey.
    + rewrite (span_xyz_curve p (values U) (map values P) (value x) s) in Ny; try assumption.
      * rewrite len_map; split; [split; [exact Hp0|split; [exact Hn|split; [exact HL|exact HU]]]|exact HC2].
      * pose proof (Hgap s Hs); lra.
      * rewrite len_map; exact Hs.
      * right; rewrite len_map; apply strict_continuous.
        -- split; [split; [exact Hp0|split; [exact Hn|split; [exact HL|exact HU]]]|exact HC2].
        -- lia.
        -- intros i Hi; pose proof (Hgap i Hi); lra.
Qed.
