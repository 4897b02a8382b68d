(** The VTK sampling grid (model: ModelIO.v) on binary64 numbers. *)
From Coq Require Import Reals Lra Lia ZArith List Bool Floats.
From Flocq Require Import Core.Core IEEE754.BinarySingleNaN IEEE754.PrimFloat Relative.
From Verif Require Import Py PyLemmas Num ModelKnots ModelBasis ModelCurve ModelSurface ModelParam ModelIO Spec SpecB64
  ProofNum ProofCurve2 ProofFit ProofIO3 ProofB64 ProofB64Basis ProofB64Span ProofB64Curve ProofB64Surface ProofB64Knots ProofB64Uniform ProofB64Param ProofB64Sort.
Import ListNotations.
Open Scope R_scope.

(** ** Ceiling and truncation *)
Lemma powerRZ_bpow e : powerRZ 2 e = bpow radix2 e.
Proof. symmetry; apply bpow_powerRZ. Qed.
Lemma up_shift e : (0 <= e)%Z -> powerRZ 2 e = IZR (2 ^ e).
Proof. intros He; rewrite powerRZ_bpow; symmetry; apply (IZR_Zpower radix2); exact He. Qed.
Lemma down_shift e : (e < 0)%Z -> powerRZ 2 e = / IZR (2 ^ (- e)).
Proof.
  intros He; rewrite powerRZ_bpow; replace e with (- - e)%Z at 1 by lia; rewrite bpow_opp; f_equal.
  symmetry; apply (IZR_Zpower radix2); lia.
Qed.
Lemma ceil64 (x : Binary64) : finite64 x -> nceil x = Some (Zceil (value x)).
Proof.
  change (nceil x) with (b64_ceil x); unfold finite64, b64_ceil, b64_parts, value.
  destruct (FloatOps.Prim2SF x) as [s|s| |s m e]; try contradiction; intros _.
  - f_equal; rewrite Zceil_IZR; destruct s; reflexivity.
  - f_equal; set (v := if s then (- Z.pos m)%Z else Z.pos m).
    replace (if s then - IZR (Z.pos m) else IZR (Z.pos m)) with (IZR v) by (unfold v; destruct s; [rewrite opp_IZR|]; reflexivity).
    destruct (Z.leb_spec 0 e) as [He|He].
    + rewrite up_shift, <- mult_IZR, Zceil_IZR by exact He; reflexivity.
    + rewrite down_shift by exact He; unfold Zceil; f_equal.
      replace (- (IZR v * / IZR (2 ^ (- e)))) with (IZR (- v) / IZR (2 ^ (- e))) by (rewrite opp_IZR; unfold Rdiv; ring).
      symmetry; apply Zfloor_div; apply Z.pow_nonzero; lia.
Qed.
Lemma trunc64 (x : Binary64) : finite64 x -> 0 <= value x -> ntrunc x = Some (Zfloor (value x)).
Proof.
  change (ntrunc x) with (b64_trunc x); unfold finite64, b64_trunc, b64_parts, value.
  destruct (FloatOps.Prim2SF x) as [s|s| |s m e]; try contradiction; intros _ H.
  - f_equal; rewrite Zfloor_IZR; destruct s; reflexivity.
  - destruct s.
    { exfalso; assert (0 < powerRZ 2 e) by (apply powerRZ_lt; lra).
      assert (0 < IZR (Z.pos m)) by (apply IZR_lt; lia).
      assert (0 < IZR (Z.pos m) * powerRZ 2 e) by (apply Rmult_lt_0_compat; assumption); lra. }
    f_equal; destruct (Z.leb_spec 0 e) as [He|He].
    + rewrite up_shift, <- mult_IZR, Zfloor_IZR by exact He; reflexivity.
    + rewrite down_shift by exact He; symmetry; apply Zfloor_div; apply Z.pow_nonzero; lia.
Qed.

(** ** The step, the end, and the two counts *)
Section Grid.
Variable m : Z.
Hypothesis Hm : (1 <= m <= 2 ^ 49)%Z.
Notation h := (value (step64 m)).
Definition end64 : Binary64 := nadd (ofZ 1) (step64 m).
Definition count64 : Binary64 := ndiv (nsub end64 (0%num : Binary64)) (step64 m).
Definition size64 : Binary64 := nmul (nsub end64 (0%num : Binary64)) (ofZ m).

Lemma um : 0 < ulp64 * IZR m <= 1 / 16.
Proof.
  pose proof ulp64_pos; pose proof (mR m Hm); split; [apply Rmult_lt_0_compat; lra|].
  assert (IZR m <= 2 ^ 49) by (rewrite pow_IZR; apply IZR_le; cbn [Z.of_nat]; lia).
  apply Rle_trans with (ulp64 * 2 ^ 49); [apply Rmult_le_compat_l; lra|].
  unfold ulp64; replace (2 ^ 53) with (2 ^ 49 * 2 ^ 4) by (rewrite <- pow_add; reflexivity).
  assert (0 < 2 ^ 49) by (apply pow_lt; lra); rewrite Rinv_mult.
  replace (/ 2 ^ 49 * / 2 ^ 4 * 2 ^ 49) with (/ 2 ^ 4) by (field; split; lra); lra.
Qed.
Lemma rnd_close x b : 0 <= x <= b -> 1 <= b -> Rabs (rnd x - x) <= 11/10 * ulp64 * b.
Proof.
  intros Hx Hb; destruct (rnd_err x) as (e & t & He & Ht & ->).
  replace (x * (1 + e) + t - x) with (x * e + t) by ring.
  eapply Rle_trans; [apply Rabs_triang|]; rewrite Rabs_mult, (Rabs_right x) by lra.
  pose proof ulp64_pos; pose proof (Rabs_pos e).
  assert (x * Rabs e <= b * ulp64) by (apply Rmult_le_compat; lra).
  assert (T : Rabs t <= 1/10 * ulp64).
  { apply Rle_trans with (1 := Ht); pose proof eta_ulp.
    assert (0 < eta64) by (unfold eta64; apply bpow_gt_0).
    assert (10 <= 2 ^ 100) by (apply Rle_trans with (2 ^ 10); [cbn [pow]; lra|apply Rle_pow; [lra|lia]]).
    assert (eta64 * 10 <= eta64 * 2 ^ 100) by (apply Rmult_le_compat_l; lra); lra. }
  assert (1/10 * ulp64 * 1 <= 1/10 * ulp64 * b) by (apply Rmult_le_compat_l; lra); lra.
Qed.
Lemma h_range : 0 < h <= 11/10 /\ 1 - ulp64 < IZR m * h < 1 + ulp64.
Proof.
  pose proof (step_range m Hm); pose proof (m_ulp m Hm); pose proof ulp64_pos; pose proof (mR m Hm).
  assert (1 / IZR m <= 1) by (apply (Rmult_le_reg_r (IZR m)); [lra|]; unfold Rdiv; rewrite Rmult_assoc, Rinv_l; lra).
  split; [lra|apply last_product; exact Hm].
Qed.
Lemma end_ok : finite64 end64 /\ value end64 = rnd (1 + h) /\ Rabs (value end64 - (1 + h)) <= 24/10 * ulp64.
Proof.
  destruct h_range as (H & _); destruct (step_ok m Hm) as (Fs & _); destruct (ofZ64 1 ltac:(lia)) as (F1 & V1).
  pose proof (rnd_close (1 + h) (21/10) ltac:(lra) ltac:(lra)) as E; pose proof ulp64_pos.
  destruct (add64 (ofZ 1 : Binary64) (step64 m) F1 Fs) as (F & V).
  { rewrite V1; apply rnd_safe with 2%Z; [lia|]; change (bpow radix2 2) with 4; apply Rabs_le; lra. }
  rewrite V1 in V; split; [exact F|]; change (value end64) with (value (PrimFloat.add (ofZ 1 : Binary64) (step64 m))).
  rewrite V; split; [reflexivity|lra].
Qed.
Lemma minus_zero (x : Binary64) : finite64 x -> finite64 (nsub x (0%num : Binary64)) /\ value (nsub x (0%num : Binary64)) = value x.
Proof.
  intros F; assert (E : rnd (value x - 0) = value x) by (rewrite Rminus_0_r; apply rnd_fmt, value_fmt).
  destruct (sub64 x (0%num : Binary64) F finite_0) as (F' & V).
  { rewrite value_0, E; rewrite value_B; apply abs_B2R_lt_emax. }
  split; [exact F'|]; change (nsub x (0%num : Binary64)) with (PrimFloat.sub x (0%num : Binary64)); rewrite V, value_0; exact E.
Qed.
Lemma zero_plus (x : Binary64) : finite64 x -> finite64 (nadd (0%num : Binary64) x) /\ value (nadd (0%num : Binary64) x) = value x.
Proof.
  intros F; assert (E : rnd (0 + value x) = value x) by (rewrite Rplus_0_l; apply rnd_fmt, value_fmt).
  destruct (add64 (0%num : Binary64) x finite_0 F) as (F' & V).
  { rewrite value_0, E; rewrite value_B; apply abs_B2R_lt_emax. }
  split; [exact F'|]; change (nadd (0%num : Binary64) x) with (PrimFloat.add (0%num : Binary64) x); rewrite V, value_0; exact E.
Qed.
Lemma size_ok : finite64 size64 /\ IZR m + 1/2 < value size64 < IZR m + 3/2.
Proof.
  destruct h_range as (H & P); destruct end_ok as (Fe & _ & Ee); destruct (minus_zero _ Fe) as (Fe' & Ve').
  destruct (ofZ64 m ltac:(lia)) as (Fm & Vm); pose proof um as UM; pose proof ulp64_pos; pose proof ulp64_small; pose proof (mR m Hm) as HR.
  apply Rabs_le_inv in Ee; set (e := value end64) in *.
  assert (X : IZR m + 1 - 24/10 * (ulp64 * IZR m) - ulp64 < e * IZR m < IZR m + 1 + 24/10 * (ulp64 * IZR m) + ulp64).
  { assert ((1 + h - 24/10 * ulp64) * IZR m <= e * IZR m) by (apply Rmult_le_compat_r; lra).
    assert (e * IZR m <= (1 + h + 24/10 * ulp64) * IZR m) by (apply Rmult_le_compat_r; lra). lra. }
  assert (B : IZR m + 2 <= bpow radix2 50).
  { change (bpow radix2 50) with (IZR (2 ^ 50)); rewrite <- plus_IZR; apply IZR_le; lia. }
  assert (U1 : ulp64 <= ulp64 * IZR m) by (rewrite <- (Rmult_1_r ulp64) at 1; apply Rmult_le_compat_l; lra).
  destruct (mul64 (nsub end64 (0%num : Binary64)) (ofZ m : Binary64) Fe' Fm) as (F & V).
  { rewrite Vm, Ve'; fold e; apply rnd_safe with 50%Z; [lia|]; apply Rabs_le; lra. }
  split; [exact F|]; change (value size64) with (value (PrimFloat.mul (nsub end64 (0%num : Binary64)) (ofZ m : Binary64))).
  rewrite V, Vm, Ve'; fold e.
  pose proof (rnd_close (e * IZR m) (IZR m + 2) ltac:(lra) ltac:(lra)) as R; apply Rabs_le_inv in R.
  assert (11/10 * ulp64 * (IZR m + 2) <= 33/10 * (ulp64 * IZR m)) by lra.
  lra.
Qed.
Lemma count_ok : finite64 count64 /\ IZR m + 1/2 < value count64 < IZR m + 3/2.
Proof.
  destruct h_range as (H & P); destruct end_ok as (Fe & _ & Ee); destruct (minus_zero _ Fe) as (Fe' & Ve').
  destruct (step_ok m Hm) as (Fs & _); pose proof um as UM; pose proof ulp64_pos; pose proof ulp64_small; pose proof (mR m Hm) as HR.
  apply Rabs_le_inv in Ee; set (e := value end64) in *.
  assert (U1 : ulp64 <= ulp64 * IZR m) by (rewrite <- (Rmult_1_r ulp64) at 1; apply Rmult_le_compat_l; lra).
  assert (X : IZR m + 1 - 46/10 * (ulp64 * IZR m) <= e / h <= IZR m + 1 + 46/10 * (ulp64 * IZR m)).
  { assert (I : / h * h = 1) by (apply Rinv_l; lra).
    assert (G : (1 - 2 * ulp64) * IZR m <= / h <= (1 + 11/10 * ulp64) * IZR m).
    { assert (IH : 0 < / h) by (apply Rinv_0_lt_compat; lra).
      assert (A1 : / h * (IZR m * h) = IZR m) by (replace (/ h * (IZR m * h)) with (IZR m * (/ h * h)) by ring; rewrite I; ring).
      assert (A2 : / h * (IZR m * h) <= / h * (1 + ulp64)) by (apply Rmult_le_compat_l; lra).
      assert (A3 : / h * (1 - ulp64) <= / h * (IZR m * h)) by (apply Rmult_le_compat_l; lra).
      rewrite A1 in A2, A3; split.
      - assert (/ h * (1 + ulp64) * (1 - 2 * ulp64) <= / h * 1).
        { rewrite Rmult_assoc; apply Rmult_le_compat_l; [lra|]; assert (0 < ulp64 * ulp64) by (apply Rmult_lt_0_compat; lra); lra. }
        assert (IZR m * (1 - 2 * ulp64) <= / h * (1 + ulp64) * (1 - 2 * ulp64)) by (apply Rmult_le_compat_r; lra). lra.
      - assert (/ h * 1 <= / h * ((1 - ulp64) * (1 + 11/10 * ulp64))).
        { apply Rmult_le_compat_l; [lra|]; assert (ulp64 * ulp64 <= / 100 * ulp64) by (apply Rmult_le_compat_r; lra); lra. }
        assert (/ h * (1 - ulp64) * (1 + 11/10 * ulp64) <= IZR m * (1 + 11/10 * ulp64)) by (apply Rmult_le_compat_r; lra). lra. }
    assert (S : e / h = / h + 1 + (e - (1 + h)) * / h) by (field; lra).
    assert (T : Rabs ((e - (1 + h)) * / h) <= 25/10 * (ulp64 * IZR m)).
    { rewrite Rabs_mult, (Rabs_right (/ h)) by (apply Rle_ge, Rlt_le, Rinv_0_lt_compat; lra).
      assert (Rabs (e - (1 + h)) <= 24/10 * ulp64) by (apply Rabs_le; lra).
      assert (GG : / h <= 101/100 * IZR m).
      { assert ((1 + 11/10 * ulp64) * IZR m <= 101/100 * IZR m) by (apply Rmult_le_compat_r; lra); lra. }
      apply Rle_trans with (24/10 * ulp64 * (101/100 * IZR m)); [|lra].
      apply Rmult_le_compat; [apply Rabs_pos|apply Rlt_le, Rinv_0_lt_compat; lra|lra|exact GG]. }
    apply Rabs_le_inv in T; rewrite S; lra. }
  assert (B : IZR m + 2 <= bpow radix2 50).
  { change (bpow radix2 50) with (IZR (2 ^ 50)); rewrite <- plus_IZR; apply IZR_le; lia. }
  destruct (div64 (nsub end64 (0%num : Binary64)) (step64 m) Fe' Fs) as (F & V).
  { lra. }
  { rewrite Ve'; fold e; apply rnd_safe with 50%Z; [lia|]; apply Rabs_le; lra. }
  split; [exact F|]; change (value count64) with (value (PrimFloat.div (nsub end64 (0%num : Binary64)) (step64 m))).
  rewrite V, Ve'; fold e.
  pose proof (rnd_close (e / h) (IZR m + 2) ltac:(lra) ltac:(lra)) as R; apply Rabs_le_inv in R.
  assert (11/10 * ulp64 * (IZR m + 2) <= 33/10 * (ulp64 * IZR m)) by lra.
  lra.
Qed.
End Grid.

(** ** Filling a buffer that is too long, or too short *)
Section Fill.
Context {K : Num}.
Lemma fill_part {X} (row : X -> res (list K)) l done w (z : list K) tl : zlen z = w ->
  for_list l (fill row) (done ++ repeat z (length l) ++ tl, zlen done)
  = let* rows := mapM (fun uv => let* q := row uv in broadcast w q) l in Ok (done ++ rows ++ tl, (zlen done + zlen l)%Z).
Proof.
  intros Hz; revert done; induction l as [|uv l IH]; intros done.
  - cbn [for_list mapM bind length repeat app]; unfold zlen at 3; cbn [length]; rewrite Z.add_0_r; reflexivity.
  - cbn [for_list mapM length repeat app]; unfold fill at 1; destruct (row uv) as [q|e|]; cbn [bind fst snd]; [|reflexivity|reflexivity].
    unfold aset_row; rewrite aget_mid by reflexivity; cbn [bind]; rewrite Hz.
    destruct (broadcast w q) as [q'|e|]; cbn [bind]; [|reflexivity|reflexivity].
    rewrite aset_mid by reflexivity; cbn [bind].
    specialize (IH (done ++ [q'])); rewrite <- app_assoc in IH; cbn [app] in IH.
    rewrite zlen_app in IH; replace (zlen done + zlen [q'])%Z with (zlen done + 1)%Z in IH by (unfold zlen; cbn; lia).
    rewrite IH; destruct (mapM _ l); cbn [bind]; [|reflexivity|reflexivity].
    rewrite <- app_assoc, zlen_cons; cbn [app]; do 2 f_equal; lia.
Qed.
Lemma mapM_rows {X} (row : X -> res (list K)) l w : (forall x, In x l -> exists q, row x = Ok q /\ zlen q = w) ->
  exists rows, mapM (fun uv => let* q := row uv in broadcast w q) l = Ok rows /\ length rows = length l.
Proof.
  induction l as [|x t IH]; intros HR.
  - exists []; split; reflexivity.
  - destruct (HR x (or_introl eq_refl)) as (q & Eq & Lq); cbn [mapM]; rewrite Eq; cbn [bind].
    unfold broadcast at 1; rewrite Lq, Z.eqb_refl; cbn [bind].
    destruct (IH (fun y H => HR y (or_intror H))) as (rows & Er & Lr); rewrite Er; cbn [bind].
    exists (q :: rows); split; [reflexivity|cbn [length]; lia].
Qed.
Lemma fill_full {X} (row : X -> res (list K)) l w (z : list K) k : zlen z = w -> (k < length l)%nat ->
  (forall x, In x l -> exists q, row x = Ok q /\ zlen q = w) ->
  for_list l (fill row) (repeat z k, 0%Z) = Err IndexError.
Proof.
  intros Hz Hk HR; rewrite <- (firstn_skipn k l), for_list_app.
  assert (L : length (firstn k l) = k) by (apply firstn_length_le; lia).
  pose proof (fill_part row (firstn k l) [] w z [] Hz) as F; cbn [app] in F; rewrite app_nil_r, L in F.
  change (zlen []) with 0%Z in F; rewrite F.
  assert (M : exists rows, mapM (fun uv => let* q := row uv in broadcast w q) (firstn k l) = Ok rows /\ length rows = k).
  { destruct (mapM_rows row (firstn k l) w) as (rows & Er & Lr).
    { intros x Hx; apply HR; rewrite <- (firstn_skipn k l); apply in_or_app; left; exact Hx. }
    rewrite L in Lr; exists rows; split; [exact Er|exact Lr]. }
  destruct M as (rows & Er & Lr); rewrite Er; cbn [bind]; rewrite app_nil_r.
  destruct (skipn k l) as [|x t] eqn:ES.
  { apply (f_equal (@length X)) in ES; rewrite skipn_length in ES; cbn in ES; lia. }
  destruct (HR x) as (q & Eq & Lq).
  { rewrite <- (firstn_skipn k l), ES; apply in_or_app; right; left; reflexivity. }
  cbn [for_list]; unfold fill at 1; rewrite Eq; cbn [bind fst snd]; unfold aset_row.
  rewrite aget_out by (unfold zlen; rewrite L, Lr; lia); reflexivity.
Qed.
End Fill.

(** ** The sampled parameters *)
Section Entries.
Variable m : Z.
Hypothesis Hm : (1 <= m <= 2 ^ 49)%Z.
Notation h := (value (step64 m)).
Definition entry64 (i : Z) : Binary64 :=
  if (i =? 0)%Z then 0%num else if (i =? 1)%Z then (0 + step64 m)%num else (0 + ofZ i * ((0 + step64 m) - 0))%num.
Lemma entry_ok i : (0 <= i <= m + 1)%Z -> finite64 (entry64 i) /\ value (entry64 i) = rnd (h * IZR i).
Proof.
  intros Hi; destruct (step_ok m Hm) as (Fs & _); destruct (zero_plus _ Fs) as (F1 & V1); destruct (minus_zero _ F1) as (F2 & V2).
  destruct (h_range m Hm) as (H & P); pose proof ulp64_small; unfold entry64.
  destruct (Z.eqb_spec i 0) as [->|N0]; [split; [exact finite_0|rewrite Rmult_0_r, rnd_0; exact value_0]|].
  destruct (Z.eqb_spec i 1) as [->|N1]; [split; [exact F1|rewrite V1, Rmult_1_r; symmetry; apply rnd_fmt, value_fmt]|].
  destruct (ofZ64 i ltac:(lia)) as (Fi & Vi).
  destruct (mul64 (ofZ i : Binary64) (nsub (nadd (0%num : Binary64) (step64 m)) (0%num : Binary64)) Fi F2) as (F3 & V3).
  { rewrite Vi, V2, V1; apply rnd_safe with 2%Z; [lia|]; change (bpow radix2 2) with 4.
    assert (0 <= IZR i <= IZR m + 1) by (rewrite <- plus_IZR; split; apply IZR_le; lia).
    assert (0 <= IZR i * h <= (IZR m + 1) * h) by (split; [apply Rmult_le_pos; lra|apply Rmult_le_compat_r; lra]).
    apply Rabs_le; lra. }
  destruct (zero_plus _ F3) as (F4 & V4); split; [exact F4|].
  etransitivity; [exact V4|]; rewrite V3, Vi, V2, V1; f_equal; ring.
Qed.
Lemma entry_sample i : (0 <= i <= m)%Z -> value (entry64 i) = value (sample64 m i).
Proof. intros Hi; destruct (entry_ok i ltac:(lia)) as (_ & ->); destruct (sample_ok m Hm i Hi) as (_ & -> & _); reflexivity. Qed.
Lemma entry_spread : spread64 m entry64.
Proof.
  destruct (spread m Hm) as (S1 & S2 & S3 & S4); split; [|split; [|split]].
  - intros i Hi; destruct (S1 i Hi) as ((_ & A) & B); unfold unit64; rewrite (entry_sample i Hi).
    destruct (entry_ok i ltac:(lia)) as (F & _); split; [split; [exact F|exact A]|exact B].
  - rewrite entry_sample by lia; exact S2.
  - rewrite entry_sample by lia; exact S3.
  - intros i j Hi Hj; rewrite !entry_sample by lia; apply S4; assumption.
Qed.
Lemma entry_past : finite64 (entry64 (m + 1)) /\ 1 < value (entry64 (m + 1)).
Proof.
  destruct (entry_ok (m + 1) ltac:(lia)) as (F & V); split; [exact F|]; rewrite V.
  destruct (h_range m Hm) as (H & P); pose proof (step_range m Hm); pose proof (m_ulp m Hm); pose proof ulp64_pos.
  apply Rlt_le_trans with (1 + 2 * ulp64); [lra|].
  rewrite <- succ_1; rewrite <- (rnd_fmt (succ radix2 (FLT_exp (-1074) 53) 1)).
  - apply rnd_le; rewrite succ_1, plus_IZR; lra.
  - apply generic_format_succ; [typeclasses eauto|exact fmt_1].
Qed.

(** The counts. *)
Definition fits64 : bool := nleb (ndiv (end64 m) (step64 m)) (ofZ (m + 1)).
Definition roomy64 : bool := nleb (ofZ (m + 1)) (nmul (end64 m) (ofZ m)).
Lemma same_float (x y : PrimFloat.float) : finite64 x -> finite64 y -> value x = value y -> value y <> 0 -> x = y.
Proof.
  rewrite !finite_B, !value_B; intros Fx Fy E N; apply Prim2B_inj.
  assert (ST : forall z : binary_float prec emax, is_finite z = true -> B2R z <> 0 -> is_finite_strict z = true).
  { intros [s|s| |s a e B]; cbn; intros F G; try discriminate; [contradiction G; reflexivity|reflexivity]. }
  apply B2R_inj; [apply ST; [exact Fx|rewrite E; exact N]|apply ST; assumption|exact E].
Qed.
Lemma end_minus : nsub (end64 m) (0%num : Binary64) = end64 m.
Proof.
  destruct (end_ok m Hm) as (Fe & _ & Ee); destruct (minus_zero _ Fe) as (Fe' & Ve').
  apply same_float; [exact Fe'|exact Fe|exact Ve'|]; apply Rabs_le_inv in Ee.
  destruct (h_range m Hm) as (H & _); pose proof ulp64_small; lra.
Qed.
Lemma fits_spec : if fits64 then nceil (count64 m) = Some (m + 1)%Z else nceil (count64 m) = Some (m + 2)%Z.
Proof.
  destruct (count_ok m Hm) as (Fc & Bc); destruct (ofZ64 (m + 1) ltac:(lia)) as (F1 & V1).
  unfold fits64; rewrite <- end_minus; fold (count64 m).
  change (nleb (count64 m) (ofZ (m + 1))) with (PrimFloat.leb (count64 m) (ofZ (m + 1) : Binary64)).
  rewrite (leb64 _ _ Fc F1), V1, (ceil64 _ Fc).
  destruct (Rle_bool_spec (value (count64 m)) (IZR (m + 1))) as [G|G]; rewrite plus_IZR in G; f_equal; apply Zceil_imp.
  - replace (m + 1 - 1)%Z with m by lia; rewrite plus_IZR; lra.
  - replace (m + 2 - 1)%Z with (m + 1)%Z by lia; rewrite !plus_IZR; lra.
Qed.
Lemma roomy_spec : if roomy64 then ntrunc (size64 m) = Some (m + 1)%Z else ntrunc (size64 m) = Some m.
Proof.
  destruct (size_ok m Hm) as (Fc & Bc); destruct (ofZ64 (m + 1) ltac:(lia)) as (F1 & V1); pose proof (mR m Hm).
  unfold roomy64; rewrite <- end_minus; fold (size64 m).
  change (nleb (ofZ (m + 1)) (size64 m)) with (PrimFloat.leb (ofZ (m + 1) : Binary64) (size64 m)).
  rewrite (leb64 _ _ F1 Fc), V1, (trunc64 _ Fc) by lra.
  destruct (Rle_bool_spec (IZR (m + 1)) (value (size64 m))) as [G|G]; rewrite plus_IZR in G; f_equal; apply Zfloor_imp; rewrite !plus_IZR; lra.
Qed.
Lemma arange64 : np_arange (0%num : Binary64) (1 + 1 / ofZ m)%num (1 / ofZ m)%num =
  Ok (map entry64 (zrange 0 (if fits64 then m + 1 else m + 2))).
Proof.
  unfold np_arange; pose proof fits_spec as F; fold (end64 m).
  change ((1 + 1 / ofZ m)%num : Binary64) with (end64 m); change ((1 / ofZ m)%num : Binary64) with (step64 m); fold (count64 m).
  destruct fits64; rewrite F; reflexivity.
Qed.

(** ** Outcomes *)
Definition row64 (point : Binary64 -> Binary64 -> res (list Binary64)) (uv : Binary64 * Binary64) : res (list Binary64) :=
  let* q := point (fst uv) (snd uv) in Ok (q ++ [fst uv; snd uv]).
Lemma grid64_unfold point : vtk_grid point m =
  let* st := for_list (list_prod (map entry64 (zrange 0 (if fits64 then m + 1 else m + 2))) (map entry64 (zrange 0 (if fits64 then m + 1 else m + 2))))
       (fill (row64 point)) (repeat (repeat (0%num : Binary64) 5) (Z.to_nat (if roomy64 then (m + 1) * (m + 1) else m * m)), 0%Z) in Ok (fst st).
Proof.
  unfold vtk_grid; destruct (Z.eqb_spec m 0); [lia|].
  change ((1 + 1 / ofZ m)%num : Binary64) with (end64 m); cbv zeta; fold (size64 m).
  pose proof roomy_spec as R.
  set (S := if roomy64 then (m + 1)%Z else m).
  assert (R' : ntrunc (size64 m) = Some S) by (unfold S; destruct roomy64; exact R); rewrite R'.
  assert (SS : (if roomy64 then (m + 1) * (m + 1) else m * m)%Z = (S * S)%Z) by (unfold S; destruct roomy64; reflexivity); rewrite SS.
  unfold np_full2; destruct (Z.ltb_spec (S * S) 0); [unfold S in *; destruct roomy64; nia|].
  change (5 <? 0)%Z with false; cbn [orb bind]; change (Z.to_nat 5) with 5%nat.
  rewrite (vtk_loop_fill point _ _ _ _ arange64); reflexivity.
Qed.

Lemma list_prod_in (point : Binary64 -> Binary64 -> res (list Binary64)) n :
  (forall i j, (0 <= i < n)%Z -> (0 <= j < n)%Z -> exists q, point (entry64 i) (entry64 j) = Ok q /\ length q = 3%nat) ->
  forall x, In x (list_prod (map entry64 (zrange 0 n)) (map entry64 (zrange 0 n))) -> exists q, row64 point x = Ok q /\ zlen q = 5%Z.
Proof.
  intros HP [u v] Hx; apply in_prod_iff in Hx; destruct Hx as (Hu & Hv).
  apply in_map_iff in Hu; destruct Hu as (i & <- & Hi); apply in_map_iff in Hv; destruct Hv as (j & <- & Hj).
  apply in_zrange in Hi; apply in_zrange in Hj; destruct (HP i j Hi Hj) as (q & Eq & Lq).
  unfold row64; cbn [fst snd]; rewrite Eq; cbn [bind]; eexists; split; [reflexivity|].
  unfold zlen; rewrite app_length, Lq; reflexivity.
Qed.

Lemma grid_all point : fits64 = true -> roomy64 = true ->
  vtk_grid point m = mapM (fun ij => let u := entry64 (fst ij) in let v := entry64 (snd ij) in let* q := point u v in broadcast 5 (q ++ [u; v]))
    (list_prod (zrange 0 (m + 1)) (zrange 0 (m + 1))).
Proof.
  intros E1 E2; rewrite grid64_unfold, E1, E2, list_prod_map.
  set (l := list_prod (zrange 0 (m + 1)) (zrange 0 (m + 1))).
  set (l' := map (fun p => (entry64 (fst p), entry64 (snd p))) l).
  assert (L : length l' = Z.to_nat ((m + 1) * (m + 1))).
  { unfold l', l; rewrite map_length, prod_length, zrange_length; nia. }
  rewrite <- L.
  pose proof (fill_part (row64 point) l' [] 5 (repeat (0%num : Binary64) 5) [] eq_refl) as F; cbn [app] in F; rewrite app_nil_r in F.
  change (zlen []) with 0%Z in F; rewrite F; clear F; unfold l'; rewrite mapM_compose.
  rewrite (mapM_ext' _ (fun ij => let u := entry64 (fst ij) in let v := entry64 (snd ij) in let* q := point u v in broadcast 5 (q ++ [u; v]))).
  - destruct (mapM _ l); cbn [bind fst]; rewrite ?app_nil_r; reflexivity.
  - intros ij; unfold row64; cbn [fst snd]; destruct (point _ _); reflexivity.
Qed.
Lemma grid_short point : fits64 = true -> roomy64 = false ->
  (forall i j, (0 <= i <= m)%Z -> (0 <= j <= m)%Z -> exists q, point (entry64 i) (entry64 j) = Ok q /\ length q = 3%nat) ->
  vtk_grid point m = Err IndexError.
Proof.
  intros E1 E2 HP; rewrite grid64_unfold, E1, E2.
  rewrite (fill_full (row64 point) _ 5 (repeat (0%num : Binary64) 5) (Z.to_nat (m * m))); [reflexivity|reflexivity| |].
  - rewrite prod_length, !map_length, !zrange_length; nia.
  - apply list_prod_in; intros i j Hi Hj; apply HP; lia.
Qed.
Lemma fits_1 : m = 1%Z -> fits64 = true.
Proof. intros E; unfold fits64; rewrite E; vm_compute; reflexivity. Qed.
Lemma grid_past point e : fits64 = false ->
  (forall j, (0 <= j <= m)%Z -> exists q, point (entry64 0) (entry64 j) = Ok q /\ length q = 3%nat) ->
  point (entry64 0) (entry64 (m + 1)) = Err e ->
  vtk_grid point m = Err e.
Proof.
  intros E1 HP HE; rewrite grid64_unfold, E1.
  assert (M2 : (2 <= m)%Z).
  { destruct (Z.eq_dec m 1) as [E|]; [rewrite (fits_1 E) in E1; discriminate|lia]. }
  set (S := if roomy64 then ((m + 1) * (m + 1))%Z else (m * m)%Z).
  assert (HS : (m + 1 <= S)%Z) by (unfold S; destruct roomy64; nia).
  replace (zrange 0 (m + 2)) with (zrange 0 (m + 1) ++ [(m + 1)%Z]) by (rewrite <- zrange_snoc by lia; f_equal; lia).
  rewrite (zrange_cons 0 (m + 1)) at 1 by lia; cbn [app map list_prod].
  rewrite (map_app entry64), map_app, <- app_assoc, for_list_app.
  set (A := map (fun y => (entry64 0, y)) (map entry64 (zrange 0 (m + 1)))).
  assert (LA : length A = Z.to_nat (m + 1)) by (unfold A; rewrite !map_length, zrange_length; f_equal; lia).
  replace (Z.to_nat S) with (length A + (Z.to_nat S - length A))%nat by lia; rewrite repeat_app.
  pose proof (fill_part (row64 point) A [] 5 (repeat (0%num : Binary64) 5) (repeat (repeat (0%num : Binary64) 5) (Z.to_nat S - length A)) eq_refl) as F.
  cbn [app] in F; change (zlen []) with 0%Z in F; rewrite F; clear F.
  destruct (mapM_rows (row64 point) A 5) as (rows & Er & _).
  { intros x Hx; unfold A in Hx; rewrite map_map in Hx; apply in_map_iff in Hx; destruct Hx as (j & <- & Hj); apply in_zrange in Hj.
    destruct (HP j ltac:(lia)) as (q & Eq & Lq); unfold row64; cbn [fst snd]; rewrite Eq; cbn [bind]; eexists; split; [reflexivity|].
    unfold zlen; rewrite app_length, Lq; reflexivity. }
  rewrite Er; cbn [bind map app for_list]; unfold fill at 1, row64 at 1; cbn [fst snd]; rewrite HE; reflexivity.
Qed.
End Entries.

Lemma mapM_pure {A B} (f : A -> res B) (g : A -> B) l : (forall x, In x l -> f x = Ok (g x)) -> mapM f l = Ok (map g l).
Proof.
  induction l as [|x l IH]; intros H; [reflexivity|]; cbn [mapM map]; rewrite (H x (or_introl eq_refl)); cbn [bind].
  rewrite IH by (intros y Hy; apply H; right; exact Hy); reflexivity.
Qed.
Lemma vtk_outcome64 n : (1 <= n <= 2 ^ 49)%Z -> exists t : Z -> PrimFloat.float, spread64 n t /\
  forall (point : Binary64 -> Binary64 -> res (list Binary64)) (q : Z -> Z -> list PrimFloat.float),
  (forall i j, (0 <= i <= n)%Z -> (0 <= j <= n)%Z -> point (t i) (t j) = Ok (q i j : list Binary64) /\ length (q i j) = 3%nat) ->
  (forall u v, finite64 v -> 1 < value v -> point u v = Err ValueError) ->
  vtk_grid point n =
    if ((1 + 1 / ofZ n) / (1 / ofZ n) <=? (ofZ (n + 1) : Binary64))%num then
      if ((ofZ (n + 1) : Binary64) <=? (1 + 1 / ofZ n) * ofZ n)%num then
        Ok (map (fun ij => (q (fst ij) (snd ij) ++ [t (fst ij); t (snd ij)] : list Binary64)) (list_prod (zrange 0 (n + 1)) (zrange 0 (n + 1))))
      else Err IndexError
    else Err ValueError.
Proof.
  intros Hn; exists (entry64 n); split; [apply entry_spread; exact Hn|]; intros point q HP HE.
  change (nleb (ndiv (nadd 1%num (ndiv 1%num (ofZ n))) (ndiv 1%num (ofZ n))) (ofZ (n + 1) : Binary64)) with (fits64 n).
  change (nleb (ofZ (n + 1) : Binary64) (nmul (nadd 1%num (ndiv 1%num (ofZ n))) (ofZ n))) with (roomy64 n).
  assert (HP' : forall i j, (0 <= i <= n)%Z -> (0 <= j <= n)%Z -> exists r, point (entry64 n i) (entry64 n j) = Ok r /\ length r = 3%nat).
  { intros i j Hi Hj; exists (q i j); exact (HP i j Hi Hj). }
  destruct (fits64 n) eqn:E1; [destruct (roomy64 n) eqn:E2|].
  - rewrite (grid_all n Hn point E1 E2).
    set (l := list_prod (zrange 0 (n + 1)) (zrange 0 (n + 1))).
    assert (HL : forall ij, In ij l -> (0 <= fst ij <= n)%Z /\ (0 <= snd ij <= n)%Z).
    { intros [i j] H; apply in_prod_iff in H; rewrite !in_zrange in H; cbn [fst snd]; lia. }
    apply mapM_pure; intros [i j] H; destruct (HL (i, j) H) as (Hi & Hj); cbn [fst snd] in Hi, Hj |- *; destruct (HP i j Hi Hj) as (Eq & Lq).
    cbv zeta; rewrite Eq; cbn [bind]; unfold broadcast; cbv zeta.
    match goal with |- context [Z.eqb ?z 5] => replace (Z.eqb z 5) with true; [reflexivity|] end.
    symmetry; apply Z.eqb_eq; revert Lq; clear; destruct (q i j) as [|a0 [|a1 [|a2 [|a3 l3]]]]; intros H; try discriminate H; reflexivity.
  - exact (grid_short n Hn point E1 E2 HP').
  - apply (grid_past n Hn point ValueError E1).
    + intros j Hj; apply HP'; lia.
    + destruct (entry_past n Hn) as (F & G); apply HE; assumption.
Qed.

(** For powers of two everything is exact. *)
Lemma fmt_plus1 k : (0 <= k <= 52)%Z -> fmt (1 + bpow radix2 (- k)).
Proof.
  intros Hk; apply generic_format_FLT; exists (Float radix2 (2 ^ k + 1) (- k)).
  - unfold F2R; cbn [Fnum Fexp]; rewrite plus_IZR.
    replace (IZR (2 ^ k)) with (bpow radix2 k) by (symmetry; apply (IZR_Zpower radix2); lia).
    rewrite Rmult_plus_distr_r, <- bpow_plus, Rmult_1_l; replace (k + - k)%Z with 0%Z by lia; reflexivity.
  - cbn [Fnum]; rewrite Z.abs_eq by (pose proof (Z.pow_nonneg 2 k); lia).
    change (Zpower radix2 53) with (2 ^ 53)%Z; assert (2 ^ k <= 2 ^ 52)%Z by (apply Z.pow_le_mono_r; lia); lia.
  - cbn [Fexp]; lia.
Qed.
Lemma fmt_next k : (0 <= k <= 52)%Z -> fmt (IZR (2 ^ k + 1)).
Proof.
  intros Hk; apply generic_format_FLT; exists (Float radix2 (2 ^ k + 1) 0).
  - unfold F2R; cbn [Fnum Fexp bpow]; ring.
  - cbn [Fnum]; rewrite Z.abs_eq by (pose proof (Z.pow_nonneg 2 k); lia).
    change (Zpower radix2 53) with (2 ^ 53)%Z; assert (2 ^ k <= 2 ^ 52)%Z by (apply Z.pow_le_mono_r; lia); lia.
  - cbn [Fexp]; lia.
Qed.
Lemma power_exact k : (0 <= k <= 49)%Z -> fits64 (2 ^ k) = true /\ roomy64 (2 ^ k) = true.
Proof.
  intros Hk; set (m := (2 ^ k)%Z).
  assert (Hm : (1 <= m <= 2 ^ 49)%Z).
  { unfold m; split; [|apply Z.pow_le_mono_r; lia]; pose proof (Z.pow_pos_nonneg 2 k); lia. }
  assert (BM : IZR m = bpow radix2 k) by (unfold m; apply (IZR_Zpower radix2); lia).
  assert (BI : 1 / IZR m = bpow radix2 (- k)) by (rewrite BM, bpow_opp; unfold Rdiv; apply Rmult_1_l).
  destruct (ofZ64 1 ltac:(lia)) as (F1 & V1); destruct (ofZ64 m ltac:(lia)) as (Fm & Vm); destruct (ofZ64 (m + 1) ltac:(lia)) as (Fn & Vn).
  destruct (step_ok m Hm) as (Fs & _).
  assert (Vs : value (step64 m) = bpow radix2 (- k)).
  { destruct (div64 (ofZ 1 : Binary64) (ofZ m : Binary64) F1 Fm) as (_ & V).
    { rewrite Vm; pose proof (mR m Hm); lra. }
    { rewrite V1, Vm, BI; rewrite rnd_fmt by (apply fmt_bpow; lia); rewrite Rabs_right by (apply Rle_ge, bpow_ge_0); apply bpow_lt; lia. }
    change (step64 m) with (PrimFloat.div (ofZ 1 : Binary64) (ofZ m : Binary64)); rewrite V, V1, Vm, BI; apply rnd_fmt, fmt_bpow; lia. }
  destruct (end_ok m Hm) as (Fe & Ve & _); rewrite Vs, rnd_fmt in Ve by (apply fmt_plus1; lia).
  assert (P : bpow radix2 (- k) * bpow radix2 k = 1) by (rewrite <- bpow_plus; replace (- k + k)%Z with 0%Z by lia; reflexivity).
  pose proof (bpow_gt_0 radix2 k) as K0; pose proof (bpow_gt_0 radix2 (- k)) as K1.
  assert (FN : fmt (IZR (m + 1))) by (apply fmt_next; lia).
  assert (BN : Rabs (IZR (m + 1)) < bpow radix2 1024).
  { rewrite plus_IZR, BM, Rabs_right by lra; apply Rle_lt_trans with (bpow radix2 50); [|apply bpow_lt; lia].
    assert (bpow radix2 k <= bpow radix2 49) by (apply bpow_le; lia); assert (bpow radix2 0 <= bpow radix2 49) by (apply bpow_le; lia).
    change (bpow radix2 0) with 1 in *; change 50%Z with (1 + 49)%Z; rewrite bpow_plus; change (bpow radix2 1) with 2; lra. }
  assert (XD : value (end64 m) / value (step64 m) = IZR (m + 1)).
  { rewrite Ve, Vs, plus_IZR, BM; apply Rmult_eq_reg_r with (bpow radix2 (- k)); [|lra]; unfold Rdiv; rewrite Rmult_assoc, Rinv_l by lra; lra. }
  assert (XM : value (end64 m) * IZR m = IZR (m + 1)) by (rewrite Ve, plus_IZR, BM; lra).
  split; unfold fits64, roomy64.
  - destruct (div64 (end64 m) (step64 m) Fe Fs) as (F & V); [rewrite Vs; lra|rewrite XD, (rnd_fmt _ FN); exact BN|].
    change (nleb (ndiv (end64 m) (step64 m)) (ofZ (m + 1))) with (PrimFloat.leb (PrimFloat.div (end64 m) (step64 m)) (ofZ (m + 1) : Binary64)).
    rewrite (leb64 _ _ F Fn), V, Vn, XD, (rnd_fmt _ FN); apply Rle_bool_true; lra.
  - destruct (mul64 (end64 m) (ofZ m : Binary64) Fe Fm) as (F & V); [rewrite Vm, XM, (rnd_fmt _ FN); exact BN|].
    change (nleb (ofZ (m + 1)) (nmul (end64 m) (ofZ m))) with (PrimFloat.leb (ofZ (m + 1) : Binary64) (PrimFloat.mul (end64 m) (ofZ m : Binary64))).
    rewrite (leb64 _ _ Fn F), V, Vn, Vm, XM, (rnd_fmt _ FN); apply Rle_bool_true; lra.
Qed.

(** ** Surfaces of the library over uniform knots *)
Lemma refuse64 (s : surf Binary64) (u v : Binary64) : finite64 v -> 1 < value v -> surf_point s u v = Err ValueError.
Proof.
  intros F V; unfold surf_point; destruct (validate_knot u); [|reflexivity].
  destruct (validate_knot (v : Binary64)) eqn:E; [|reflexivity]; destruct (validate_unit64 v E) as (_ & H); lra.
Qed.
Lemma vtk_surface64 p q nu nv P M n : (1 <= p)%nat -> INR p <= 2 ^ 40 -> (1 <= q)%nat -> INR q <= 2 ^ 40 ->
  (p + 1 <= nu)%nat -> (Z.of_nat nu - Z.of_nat p <= 490000)%Z -> (q + 1 <= nv)%nat -> (Z.of_nat nv - Z.of_nat q <= 490000)%Z ->
  length P = (nu * nv)%nat -> Forall (fun row => length row = 3%nat /\ within (- M) M row) P -> 0 <= M <= 2 ^ 890 ->
  (1 <= n <= 2 ^ 49)%Z ->
  exists (U V : list PrimFloat.float) (t : Z -> PrimFloat.float) (y : Z -> Z -> list PrimFloat.float),
  generate_uniform (Z.of_nat p) (Z.of_nat nu) = Ok (U : list Binary64) /\
  generate_uniform (Z.of_nat q) (Z.of_nat nv) = Ok (V : list Binary64) /\ spread64 n t /\
  (forall i j, (0 <= i <= n)%Z -> (0 <= j <= n)%Z -> near64 (11 * INR (p + q + 1) * (ulp64 * M + tiny64)) (y i j)
      (surface_xyz (values U) (values V) p q nu nv (map values P) (value (t i)) (value (t j)))) /\
  vtk_grid (surf_point (mkSurf (K := Binary64) (Z.of_nat p) (Z.of_nat q) (Z.of_nat nu) (Z.of_nat nv) P U V)) n =
    if ((1 + 1 / ofZ n) / (1 / ofZ n) <=? (ofZ (n + 1) : Binary64))%num then
      if ((ofZ (n + 1) : Binary64) <=? (1 + 1 / ofZ n) * ofZ n)%num then
        Ok (map (fun ij => (y (fst ij) (snd ij) ++ [t (fst ij); t (snd ij)] : list Binary64)) (list_prod (zrange 0 (n + 1)) (zrange 0 (n + 1))))
      else Err IndexError
    else Err ValueError.
Proof.
  intros Hp1 Hp Hq1 Hq Hnu Bu Hnv Bv HL HP HM Hn.
  destruct (uniform_good (Z.of_nat p) (Z.of_nat nu) ltac:(lia) ltac:(lia) Bu) as (U & EU & WU & CU & KU0 & KU1 & GU & TU).
  destruct (uniform_good (Z.of_nat q) (Z.of_nat nv) ltac:(lia) ltac:(lia) Bv) as (V & EV & WV & CV & KV0 & KV1 & GV & TV).
  destruct (vtk_outcome64 n Hn) as (t & Ht & H).
  set (s := mkSurf (K := Binary64) (Z.of_nat p) (Z.of_nat q) (Z.of_nat nu) (Z.of_nat nv) P U V) in *.
  set (y := fun i j => match surf_point s (t i) (t j) with Ok z => z | _ => [] end).
  assert (HY : forall i j, (0 <= i <= n)%Z -> (0 <= j <= n)%Z -> surf_point s (t i) (t j) = Ok (y i j : list Binary64) /\
    near64 (11 * INR (p + q + 1) * (ulp64 * M + tiny64)) (y i j)
      (surface_xyz (values U) (values V) p q nu nv (map values P) (value (t i)) (value (t j)))).
  { intros i j Hi Hj; destruct (proj1 Ht i Hi) as ((Fi & Vi) & _); destruct (proj1 Ht j Hj) as ((Fj & Vj) & _).
    destruct (surf_point_b64 p q nu nv U V P (t i) (t j) M WU CU Hp1 Hp KU0 KU1 GU WV CV Hq1 Hq KV0 KV1 GV HL HP HM
      Fi Vi (TU _ (proj2 Vi)) Fj Vj (TV _ (proj2 Vj))) as (z & Ez & Nz).
    unfold y, s; rewrite Ez; split; [reflexivity|exact Nz]. }
  exists U, V, t, y; split; [exact EU|]; split; [exact EV|]; split; [exact Ht|]; split; [intros i j Hi Hj; apply HY; assumption|].
  apply H.
  - intros i j Hi Hj; destruct (HY i j Hi Hj) as (E & N); split; [exact E|].
    assert (L : length (y i j) = length (surface_xyz (values U) (values V) p q nu nv (map values P) (value (t i)) (value (t j)))).
    { clear -N; induction N; cbn [length]; congruence. }
    exact L.
  - intros u v Fv Vv; apply refuse64; assumption.
Qed.

(** What is triangulated and written. *)
Lemma vtk_export64 {T} (dl : list (list Binary64) -> res T) (mw : text -> list (list Binary64) -> T -> io unit)
    (point : Binary64 -> Binary64 -> res (list Binary64)) (t : Z -> PrimFloat.float) (y : Z -> Z -> list PrimFloat.float) n name d (b1 b2 : bool) :
  (forall i j, (0 <= i <= n)%Z -> (0 <= j <= n)%Z -> length (y i j) = 3%nat) ->
  let grid := list_prod (zrange 0 (n + 1)) (zrange 0 (n + 1)) in
  vtk_grid point n = (if b1 then if b2 then Ok (map (fun ij => (y (fst ij) (snd ij) ++ [t (fst ij); t (snd ij)] : list Binary64)) grid)
    else Err IndexError else Err ValueError) ->
  surf_to_vtk dl mw (Some point) name n d =
    if b1 then if b2 then
      match dl (map (fun ij => ([t (fst ij); t (snd ij)] : list Binary64)) grid) with
      | Ok simplices => mw name (map (fun ij => (y (fst ij) (snd ij) : list Binary64)) grid) simplices d
      | Err e => (d, Err e)
      | Diverge => (d, Diverge)
      end
    else (d, Err IndexError) else (d, Err ValueError).
Proof.
  intros Hy grid E; unfold surf_to_vtk, ibind, ret; rewrite E.
  destruct b1; [|reflexivity]; destruct b2; [|reflexivity]; cbn beta iota.
  assert (R : forall ij, In ij grid -> (0 <= fst ij <= n)%Z /\ (0 <= snd ij <= n)%Z).
  { intros [i j] H; unfold grid in H; apply in_prod_iff in H; destruct H as (H1 & H2); apply PyLemmas.in_zrange in H1, H2; cbn; lia. }
  clearbody grid; clear E.
  rewrite mapM_compose, (mapM_pure _ (fun ij => ([t (fst ij); t (snd ij)] : list Binary64))).
  2: { intros ij H; destruct (R ij H) as (H1 & H2); pose proof (Hy _ _ H1 H2) as L.
       destruct (y (fst ij) (snd ij)) as [|a0 [|a1 [|a2 [|a3 l]]]]; try discriminate L; reflexivity. }
  cbn beta iota; destruct (dl _); cbn beta iota; try reflexivity; f_equal.
  rewrite map_map; apply map_ext_in; intros ij H; destruct (R ij H) as (H1 & H2); pose proof (Hy _ _ H1 H2) as L.
  destruct (y (fst ij) (snd ij)) as [|a0 [|a1 [|a2 [|a3 l]]]]; try discriminate L; reflexivity.
Qed.
Lemma vtk_library64 p q nu nv P M n : (1 <= p)%nat -> INR p <= 2 ^ 40 -> (1 <= q)%nat -> INR q <= 2 ^ 40 ->
  (p + 1 <= nu)%nat -> (Z.of_nat nu - Z.of_nat p <= 490000)%Z -> (q + 1 <= nv)%nat -> (Z.of_nat nv - Z.of_nat q <= 490000)%Z ->
  length P = (nu * nv)%nat -> Forall (fun row => length row = 3%nat /\ within (- M) M row) P -> 0 <= M <= 2 ^ 890 ->
  (1 <= n <= 2 ^ 49)%Z ->
  exists (U V : list PrimFloat.float) (t : Z -> PrimFloat.float) (y : Z -> Z -> list PrimFloat.float),
  generate_uniform (Z.of_nat p) (Z.of_nat nu) = Ok (U : list Binary64) /\
  generate_uniform (Z.of_nat q) (Z.of_nat nv) = Ok (V : list Binary64) /\ spread64 n t /\
  (forall i j, (0 <= i <= n)%Z -> (0 <= j <= n)%Z -> near64 (11 * INR (p + q + 1) * (ulp64 * M + tiny64)) (y i j)
      (surface_xyz (values U) (values V) p q nu nv (map values P) (value (t i)) (value (t j)))) /\
  forall (T : Type) (dl : list (list Binary64) -> res T) (mw : text -> list (list Binary64) -> T -> io unit) name d,
  let grid := list_prod (zrange 0 (n + 1)) (zrange 0 (n + 1)) in
  surf_to_vtk dl mw (Some (surf_point (mkSurf (K := Binary64) (Z.of_nat p) (Z.of_nat q) (Z.of_nat nu) (Z.of_nat nv) P U V))) name n d =
    if ((1 + 1 / ofZ n) / (1 / ofZ n) <=? (ofZ (n + 1) : Binary64))%num then
      if ((ofZ (n + 1) : Binary64) <=? (1 + 1 / ofZ n) * ofZ n)%num then
        match dl (map (fun ij => ([t (fst ij); t (snd ij)] : list Binary64)) grid) with
        | Ok simplices => mw name (map (fun ij => (y (fst ij) (snd ij) : list Binary64)) grid) simplices d
        | Err e => (d, Err e)
        | Diverge => (d, Diverge)
        end
      else (d, Err IndexError)
    else (d, Err ValueError).
Proof.
  intros H1 H2 H3 H4 H5 H6 H7 H8 H9 H10 H11 Hn.
  destruct (vtk_surface64 p q nu nv P M n H1 H2 H3 H4 H5 H6 H7 H8 H9 H10 H11 Hn) as (U & V & t & y & EU & EV & Ht & Hy & E).
  exists U, V, t, y; split; [exact EU|]; split; [exact EV|]; split; [exact Ht|]; split; [exact Hy|].
  intros T dl mw name d grid; apply vtk_export64; [|exact E].
  intros i j Hi Hj; specialize (Hy i j Hi Hj).
  assert (L : length (y i j) = length (surface_xyz (values U) (values V) p q nu nv (map values P) (value (t i)) (value (t j)))).
  { clear -Hy; induction Hy; cbn [length]; congruence. }
  exact L.
Qed.
Lemma above_one (x : PrimFloat.float) : finite64 x -> nltb (1%num : Binary64) (x : Binary64) = if Rlt_dec 1 (value x) then true else false.
Proof.
  intros F; destruct (ofZ64 1 ltac:(lia)) as (F1 & V1).
  change (nltb (1%num : Binary64) (x : Binary64)) with (PrimFloat.ltb (ofZ 1 : Binary64) x); rewrite (ltb64 _ _ F1 F), V1.
  destruct (Rlt_dec 1 (value x)) as [H|H]; [apply Rlt_bool_true; exact H|apply Rlt_bool_false; lra].
Qed.
