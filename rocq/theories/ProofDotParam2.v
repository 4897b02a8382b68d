(** Inversion on binary64 numbers with dot products of any kind (SpecDot.v). *)
From Coq Require Import Reals Lra Lia ZArith List Bool Permutation Sorted Floats.
From Flocq Require Import Core.Core IEEE754.BinarySingleNaN IEEE754.PrimFloat.
From Verif Require Import Py PyLemmas Num ModelKnots ModelBasis ModelCurve ModelSurface ModelParam ModelDot ModelDotParam Spec SpecB64 SpecDot
  ProofNum ProofBasis ProofCurve ProofCurve2 ProofParam ProofParam2 ProofParam3 ProofParam4 ProofFit7 ProofB64 ProofB64Basis ProofB64Span ProofB64Curve ProofB64Knots ProofB64Norm ProofB64Surface ProofB64Ders3 ProofB64Param ProofB64Sort
  ProofDot ProofDotParam.
Import ListNotations.
Open Scope R_scope.

(** ** Dot products of an array with itself *)
Lemma slack_small n A : INR n <= 2 ^ 41 -> 0 <= A -> slack n A <= A + 1.
Proof.
  intros Hn HA; pose proof ulp64_pos as Hu; pose proof eta64_pos as He; pose proof (grow_bound n Hn) as GB; pose proof (pos_INR n) as N0; pose proof (grow_nonneg n).
  assert (NU : INR n * ulp64 <= / 4096).
  { pose proof ulp64_tiny as Ht; apply Rle_trans with (2 ^ 41 * ulp64); [apply Rmult_le_compat_r; lra|].
    replace (2 ^ 53) with (2 ^ 41 * 4096) in Ht by (cbn [pow]; ring).
    apply Rmult_le_reg_r with 4096; [lra|]; rewrite Rinv_l by lra; lra. }
  assert (EU : eta64 <= ulp64).
  { pose proof eta_ulp as EU; assert (1 <= 2 ^ 100) by (apply pow_R1_Rle; lra).
    apply Rle_trans with (eta64 * 2 ^ 100); [|exact EU]; rewrite <- (Rmult_1_r eta64) at 1; apply Rmult_le_compat_l; lra. }
  unfold slack; apply Rplus_le_compat.
  - rewrite <- (Rmult_1_l A) at 2; apply Rmult_le_compat_r; lra.
  - apply Rle_trans with (2 * (INR n * ulp64)); [|lra].
    replace (INR n * (1 + grow n) * eta64) with ((1 + grow n) * (INR n * eta64)) by ring.
    apply Rmult_le_compat; [lra|apply Rmult_le_pos; lra|lra|apply Rmult_le_compat_l; assumption].
Qed.
Definition psign (p : PrimFloat.float * PrimFloat.float) : Prop := 0 <= value (fst p) * value (snd p).
Lemma dotted_nonneg l r : dotted64 l r -> Forall pfin l -> Forall psign l -> INR (length l) <= 2 ^ 41 -> pabs l <= 2 ^ 990 -> 0 <= value r.
Proof.
  assert (Big : 4 * 2 ^ 990 + 4 <= 2 ^ 1023).
  { replace (2 ^ 1023) with (2 ^ 990 * 2 ^ 33) by (rewrite <- pow_add; reflexivity).
    assert (1 <= 2 ^ 990) by (apply pow_R1_Rle; lra); generalize dependent (2 ^ 990); clear; intros z H; cbn [pow]; lra. }
  assert (Bnd : forall l a, dotted64 l a -> Forall pfin l -> INR (length l) <= 2 ^ 41 -> pabs l <= 2 ^ 990 -> finite64 a /\ Rabs (value a) <= 2 * pabs l + 1).
  { clear l r; intros l a D F L A; destruct (dotted_err l a D F L A) as (Fa & Ea); split; [exact Fa|].
    pose proof (slack_small (length l) (pabs l) L (pabs_nonneg l)); pose proof (psum_abs l).
    replace (value a) with (psum l + (value a - psum l)) by ring; eapply Rle_trans; [apply Rabs_triang|]; lra. }
  induction 1 as [|x y|l1 l2 a b D1 IH1 D2 IH2|l x y a r D IH HF|l l' a HP D IH]; intros FL SL HN HA.
  - change (value 0%float) with (value (0%num : Binary64)); rewrite value_0; lra.
  - inversion FL as [|? ? (Fx & Fy) _]; inversion SL as [|? ? S _]; subst; unfold psign in S; cbn [fst snd] in *.
    unfold pabs in HA; cbn [map fold_right fst snd] in HA; rewrite Rplus_0_r in HA.
    destruct (mul64 x y Fx Fy) as (_ & Vm).
    { apply rnd_safe with 990%Z; [lia|]; rewrite p990; exact HA. }
    rewrite Vm; apply rnd_nonneg; exact S.
  - apply Forall_app in FL; destruct FL as (F1 & F2); apply Forall_app in SL; destruct SL as (S1 & S2); rewrite app_length, plus_INR in HN; rewrite pabs_app in HA.
    pose proof (pabs_nonneg l1) as A1; pose proof (pabs_nonneg l2) as A2.
    pose proof (pos_INR (length l1)) as N1; pose proof (pos_INR (length l2)) as N2.
    destruct (Bnd l1 a D1 F1 ltac:(lra) ltac:(lra)) as (Fa & Ba); destruct (Bnd l2 b D2 F2 ltac:(lra) ltac:(lra)) as (Fb & Bb).
    specialize (IH1 F1 S1 ltac:(lra) ltac:(lra)); specialize (IH2 F2 S2 ltac:(lra) ltac:(lra)).
    destruct (add64 a b Fa Fb) as (_ & Vs).
    { apply rnd_safe with 1023%Z; [lia|]; replace (bpow radix2 1023) with (2 ^ 1023) by (rewrite bpow_powerRZ; reflexivity).
      eapply Rle_trans; [apply Rabs_triang|]; lra. }
    rewrite Vs; apply rnd_nonneg; lra.
  - inversion FL as [|? ? (Fx & Fy) F1]; inversion SL as [|? ? S S1]; subst; unfold psign in S; cbn [fst snd] in *; cbn [length] in HN; rewrite S_INR in HN.
    assert (EA : pabs ((x, y) :: l) = pabs l + Rabs (value x * value y)) by (unfold pabs; cbn [map fold_right fst snd]; ring).
    rewrite EA in HA; pose proof (pabs_nonneg l) as A1; pose proof (pos_INR (length l)) as N1; pose proof (Rabs_pos (value x * value y)) as X0.
    destruct (Bnd l a D F1 ltac:(lra) ltac:(lra)) as (Fa & Ba); specialize (IH F1 S1 ltac:(lra) ltac:(lra)).
    destruct (HF Fx Fy Fa) as (_ & Near).
    { eapply Rle_trans; [apply Rabs_triang|]; lra. }
    specialize (Near (0%num : Binary64) finite_0); rewrite value_0 in Near.
    rewrite (Rabs_left1 (0 - _)) in Near by lra; apply Rabs_le_inv in Near; lra.
  - apply IH.
    + rewrite Forall_forall in *; intros z Hz; apply FL; eapply Permutation_in; eassumption.
    + rewrite Forall_forall in *; intros z Hz; apply SL; eapply Permutation_in; eassumption.
    + rewrite (Permutation_length HP); exact HN.
    + rewrite (pabs_perm _ _ HP); exact HA.
Qed.
Lemma self_pairs (l : list PrimFloat.float) : within (- 2 ^ 400) (2 ^ 400) l ->
  Forall pfin (combine l l) /\ Forall psign (combine l l) /\ length (combine l l) = length l /\
  psum (combine l l) = dotR (values l) (values l) /\ pabs (combine l l) = dotR (values l) (values l) /\
  dotR (values l) (values l) <= INR (length l) * 2 ^ 800.
Proof.
  induction 1 as [|x l (Fx & Hx) _ (I1 & I2 & I3 & I4 & I5 & I6)].
  - unfold psum, pabs, dotR; cbn; repeat split; try constructor; lra.
  - unfold psum, pabs, dotR, values in *; cbn [combine map fold_right fst snd length] in *.
    assert (XX : 0 <= value x * value x <= 2 ^ 800).
    { split; [apply Rle_0_sqr|]; replace (2 ^ 800) with (2 ^ 400 * 2 ^ 400) by (rewrite <- pow_add; reflexivity).
      rewrite <- (Rabs_right (value x * value x)), Rabs_mult by (apply Rle_ge, Rle_0_sqr).
      apply Rmult_le_compat; try apply Rabs_pos; apply Rabs_le; exact Hx. }
    split; [constructor; [split; exact Fx|exact I1]|]; split; [constructor; [apply XX|exact I2]|]; split; [f_equal; exact I3|].
    split; [rewrite I4; reflexivity|]; split; [rewrite I5, Rabs_right by lra; reflexivity|].
    rewrite S_INR; lra.
Qed.

Section Dots.
Variable dot : list Z -> list PrimFloat.float -> list PrimFloat.float -> PrimFloat.float.
Hypothesis DOT : dots64 dot.
Lemma vnorm64_dot site (l : list PrimFloat.float) : within (- 2 ^ 400) (2 ^ 400) l -> INR (length l) <= 1000 ->
  finite64 (norm (K := Binary64) dot site l) /\
  Rabs (value (norm (K := Binary64) dot site l) - normR (values l)) <= (2 * INR (length l) + 4) * ulp64 * normR (values l) + / 2 ^ 520.
Proof.
  intros HW HK; pose proof ulp64_pos as Hu; pose proof ulp64_small as Hu2; pose proof eta64_pos as He.
  destruct (self_pairs l HW) as (PF & PS & PL & PE & PA & S3).
  change (norm (K := Binary64) dot site l) with (PrimFloat.sqrt (dot site l l)).
  pose proof (DOT site l l eq_refl) as DD; set (s := dot site l l) in *.
  pose proof (dotR_self_nonneg (values l)) as SN.
  set (S := dotR (values l) (values l)) in *; set (k := length l) in *.
  assert (Kpos : 0 <= INR k) by apply pos_INR.
  assert (T53 : 1000000 <= 2 ^ 53).
  { replace (2 ^ 53) with (2 ^ 20 * 2 ^ 33) by (rewrite <- pow_add; reflexivity); assert (1 <= 2 ^ 33) by (apply pow_R1_Rle; lra); cbn [pow]; lra. }
  assert (U6 : 1000000 * ulp64 <= 1).
  { pose proof ulp64_tiny; assert (1000000 * ulp64 <= 2 ^ 53 * ulp64) by (apply Rmult_le_compat_r; lra); lra. }
  assert (KU : INR k * ulp64 <= 1000 * ulp64) by (apply Rmult_le_compat_r; lra).
  assert (K41 : INR k <= 2 ^ 41) by (assert (1000 <= 2 ^ 41) by (replace (2 ^ 41) with (2 ^ 10 * 2 ^ 31) by (rewrite <- pow_add; reflexivity); assert (1 <= 2 ^ 31) by (apply pow_R1_Rle; lra); cbn [pow]; lra); lra).
  assert (KE : INR k * eta64 <= 1000 * eta64) by (apply Rmult_le_compat_r; lra).
  pose proof (grow_bound k K41) as G; pose proof (grow_nonneg k) as G0.
  assert (S990 : S <= 2 ^ 990).
  { apply Rle_trans with (1 := S3); replace (2 ^ 990) with (2 ^ 190 * 2 ^ 800) by (rewrite <- pow_add; reflexivity).
    apply Rmult_le_compat_r; [apply pow_le; lra|].
    replace (2 ^ 190) with (2 ^ 10 * 2 ^ 180) by (rewrite <- pow_add; reflexivity); assert (1 <= 2 ^ 180) by (apply pow_R1_Rle; lra); cbn [pow] in *; lra. }
  destruct (dotted_err _ _ DD PF) as (Fs & Es); [rewrite PL; exact K41|rewrite PA; exact S990|].
  pose proof (dotted_nonneg _ _ DD PF PS) as Ps; rewrite PL, PA in Ps; specialize (Ps K41 S990).
  rewrite PL, PE, PA in Es; fold k in Es; unfold slack in Es.
  assert (Es2 : Rabs (value s - S) <= (2 * INR k + 2) * ulp64 * S + 2 * INR k * eta64).
  { apply Rle_trans with (1 := Es).
    assert (grow k * S <= 11/10 * INR k * ulp64 * S) by (apply Rmult_le_compat_r; lra).
    assert (0 <= INR k * eta64) by (apply Rmult_le_pos; lra).
    assert (grow k * (INR k * eta64) <= 1 * (INR k * eta64)) by (apply Rmult_le_compat_r; lra).
    assert (0 <= ulp64 * S) by (apply Rmult_le_pos; lra).
    assert (0 <= INR k * (ulp64 * S)) by (apply Rmult_le_pos; lra).
    lra. }
  destruct (sqrt64 s Fs Ps) as (Fq & Vq); split; [exact Fq|].
  rewrite Vq; unfold normR; fold S.
  destruct (rnd_err (sqrt (value s))) as (e & h & Ee & Eh & ->).
  set (a := (2 * INR k + 2) * ulp64) in *; set (b := 2 * INR k * eta64) in *.
  assert (Ha : 0 <= a <= / 100).
  { unfold a; split; [apply Rmult_le_pos; lra|lra]. }
  assert (Hb : 0 <= b) by (unfold b; apply Rmult_le_pos; lra).
  pose proof (sqrt_error S (value s) a b SN Ps ltac:(lra) Hb Es2) as Q.
  pose proof (sqrt_pos S); pose proof (sqrt_pos (value s)); pose proof (sqrt_pos b).
  assert (QB : sqrt b <= / 2 ^ 525).
  { rewrite <- (sqrt_square (/ 2 ^ 525)) by (left; apply Rinv_0_lt_compat, pow_lt; lra); apply sqrt_le_1_alt.
    rewrite <- Rinv_mult, <- pow_add; change (525 + 525)%nat with 1050%nat; unfold b.
    apply Rle_trans with (bpow radix2 11 * eta64).
    - replace (bpow radix2 11) with 2048 by (cbn; lra); lra.
    - unfold eta64; rewrite <- bpow_plus; rewrite pow_bpow, <- bpow_opp; apply bpow_le; lia. }
  assert (Q5 : 32 * / 2 ^ 525 = / 2 ^ 520).
  { replace (2 ^ 525) with (2 ^ 5 * 2 ^ 520) by (rewrite <- pow_add; reflexivity).
    replace (2 ^ 5) with 32 by ring; field; apply pow_nonzero; lra. }
  assert (QE : eta64 <= / 2 ^ 525).
  { unfold eta64; rewrite pow_bpow, <- bpow_opp; apply bpow_le; lia. }
  replace (sqrt (value s) * (1 + e) + h - sqrt S) with ((sqrt (value s) - sqrt S) + sqrt (value s) * e + h) by ring.
  eapply Rle_trans; [apply Rabs_triang|]; eapply Rle_trans; [apply Rplus_le_compat_r, Rabs_triang|].
  rewrite Rabs_mult, (Rabs_right (sqrt (value s))) by lra.
  assert (R1 : sqrt (value s) <= (1 + a) * sqrt S + 2 * sqrt b) by (apply Rabs_le_inv in Q; lra).
  assert (R2 : sqrt (value s) * Rabs e <= ((1 + a) * sqrt S + 2 * sqrt b) * ulp64).
  { apply Rmult_le_compat; try assumption; apply Rabs_pos. }
  assert (R3 : (1 + a) * sqrt S * ulp64 <= 2 * (ulp64 * sqrt S)).
  { assert (0 <= ulp64 * sqrt S) by (apply Rmult_le_pos; lra).
    assert (a * (ulp64 * sqrt S) <= / 100 * (ulp64 * sqrt S)) by (apply Rmult_le_compat_r; lra); lra. }
  assert (R4 : sqrt b * ulp64 <= sqrt b) by (rewrite <- (Rmult_1_r (sqrt b)) at 2; apply Rmult_le_compat_l; lra).
  unfold a in Q |- *; lra.
Qed.

Lemma dist64_dot (a b : list PrimFloat.float) : length a = length b -> INR (length a) <= 1000 ->
  within (- 2 ^ 399) (2 ^ 399) a -> within (- 2 ^ 399) (2 ^ 399) b ->
  exists r : list PrimFloat.float, np_sub (a : list Binary64) (b : list Binary64) = Ok (r : list Binary64) /\
    forall site, finite64 (norm (K := Binary64) dot site r) /\
    Rabs (value (norm (K := Binary64) dot site r) - distR (values a) (values b)) <=
      (2 * INR (length a) + 6) * ulp64 * distR (values a) (values b) + / 2 ^ 520.
Proof.
  intros Hl HK Ha Hb; pose proof ulp64_pos as Hu; pose proof ulp64_small as Hu2.
  pose proof (differences64 a b Hl Ha Hb) as HD.
  assert (EN : np_sub (a : list Binary64) (b : list Binary64) = Ok (vmap2 (nsub (n := Binary64)) a b)).
  { unfold np_sub, np_bin; replace (zlen (a : list Binary64) =? zlen (b : list Binary64))%Z with true; [reflexivity|].
    symmetry; apply Z.eqb_eq; exact (f_equal Z.of_nat Hl). }
  rewrite EN; cbv zeta in HD; clear EN; revert HD.
  generalize (vmap2 (nsub (n := Binary64)) a b : list PrimFloat.float); intros r (W & L0 & D).
  assert (L : @length PrimFloat.float r = length a) by exact L0; clear L0; exists r; split; [reflexivity|]; intros site.
  - destruct (vnorm64_dot site r W) as (F & E); [rewrite L; exact HK|]; split; [exact F|].
    rewrite L in E; apply relative_norm in D; unfold distR.
    set (n1 := normR (values _)) in *; set (n0 := normR (subR _ _)) in *; set (v := value _) in *.
    assert (N0 : 0 <= n0) by apply normR_nonneg.
    assert (Kpos : 0 <= INR (length a)) by apply pos_INR; set (k := INR (length a)) in *.
    assert (U6 : 1000000 * ulp64 <= 1).
    { pose proof ulp64_tiny; assert (1000000 <= 2 ^ 53) by (replace (2 ^ 53) with (2 ^ 20 * 2 ^ 33) by (rewrite <- pow_add; reflexivity); assert (1 <= 2 ^ 33) by (apply pow_R1_Rle; lra); cbn [pow]; lra).
      assert (1000000 * ulp64 <= 2 ^ 53 * ulp64) by (apply Rmult_le_compat_r; lra); lra. }
    assert (KU : k * ulp64 <= 1000 * ulp64) by (apply Rmult_le_compat_r; lra).
    assert (X : (2 * k + 4) * ulp64 * n1 <= (2 * k + 4) * ulp64 * ((1 + ulp64) * n0)).
    { apply Rmult_le_compat_l; [apply Rmult_le_pos; lra|lra]. }
    assert (Y : (2 * k + 4) * ulp64 * (ulp64 * n0) <= 1 * (ulp64 * n0)).
    { apply Rmult_le_compat_r; [apply Rmult_le_pos; lra|lra]. }
    apply Rabs_le_inv in E; apply Rabs_le; lra.
Qed.

Lemma guess64_dot (c : curve_beh Binary64) (P : list PrimFloat.float) (q : Z -> list PrimFloat.float) n :
  cb_count c = n -> (1 <= n)%Z -> INR (length P) <= 1000 -> within (- 2 ^ 399) (2 ^ 399) P ->
  (forall i, (0 <= i < 2 * n)%Z -> cb_point c (sample64 (2 * n - 1) i) = Ok (q i : list Binary64) /\ length (q i) = length P /\
     within (- 2 ^ 399) (2 ^ 399) (q i)) ->
  exists k, (0 <= k < 2 * n)%Z /\ initial_guess_curve_dot (K := Binary64) dot c (P : list Binary64) = Ok (sample64 (2 * n - 1) k : Binary64) /\
    ((exists i, (0 <= i < 2 * n)%Z /\ distR (values P) (values (q i)) <= 999999) ->
     forall i, (0 <= i < 2 * n)%Z -> distR (values P) (values (q k)) <=
       (1 + 3 * ((2 * INR (length P) + 6) * ulp64)) * distR (values P) (values (q i)) + / 2 ^ 518) /\
    ((forall i, (0 <= i < 2 * n)%Z -> 1000001 <= distR (values P) (values (q i))) -> k = 0%Z).
Proof.
  intros Ec Hn HK HP Hq.
  pose proof (thousand_ulp (INR (length P)) (conj (pos_INR _) HK)) as He; destruct tiny520 as (Ht & <-).
  set (e := (2 * INR (length P) + 6) * ulp64) in *; set (t := / 2 ^ 520) in *.
  unfold initial_guess_curve_dot; rewrite Ec; cbv zeta; rewrite samples_tab64 by exact Hn.
  set (N := (2 * n)%Z) in *; set (u := sample64 (N - 1)) in *.
  rewrite (aget_tab (Z.to_nat N) u 0%Z) by (unfold N; lia); cbn [bind].
  destruct million64 as (FM & VM).
  destruct (for_range_inv (fun i (st : Binary64 * Binary64) => finite64 (fst st) /\ value (fst st) <= 1000000 /\
      (forall j, (0 <= j < i)%Z -> exists d, value (fst st) <= d /\
         Rabs (d - distR (values P) (values (q j))) <= e * distR (values P) (values (q j)) + t) /\
      ((value (fst st) = 1000000 /\ snd st = u 0%Z) \/
       (exists k, (0 <= k < N)%Z /\ snd st = u k /\ value (fst st) < 1000000 /\
         Rabs (value (fst st) - distR (values P) (values (q k))) <= e * distR (values P) (values (q k)) + t)))
    0%Z N (guess_step_dot (K := Binary64) dot c (P : list Binary64) (tab (Z.to_nat N) u)) (lit_1e6 : Binary64, u 0%Z : Binary64)) as (st & E & HI).
  - unfold N; lia.
  - cbn [fst snd]; split; [exact FM|]; rewrite VM; split; [lra|]; split; [intros; lia|left; auto].
  - intros i [mv u0] Hi (Fm & Hm1 & Hm & Hc); cbn [fst snd] in *; unfold guess_step_dot.
    rewrite (aget_tab (Z.to_nat N) u i) by lia; cbn [bind].
    destruct (Hq i Hi) as (Eq & Lq & Wq); rewrite Eq; cbn [bind].
    destruct (dist64_dot P (q i) (eq_sym Lq) HK HP Wq) as (r & Er & FD); destruct (FD [i]) as (Fr & Dr); fold e in Dr; fold t in Dr.
    rewrite Er; cbn [bind fst].
    change (nltb (norm (K := Binary64) dot [i] r) mv) with (PrimFloat.ltb (norm (K := Binary64) dot [i] r) mv).
    rewrite (ltb64 _ _ Fr Fm).
    set (v := norm (K := Binary64) dot [i] r) in *.
    destruct (Rlt_bool_spec (value v) (value mv)) as [EL|EL].
    + eexists; split; [reflexivity|]; cbn [fst snd]; split; [exact Fr|]; split; [lra|]; split.
      * intros j Hj; destruct (Z.eq_dec j i) as [->|]; [exists (value v); split; [lra|exact Dr]|].
        destruct (Hm j ltac:(lia)) as (d & D1 & D2); exists d; split; [lra|exact D2].
      * right; exists i; split; [lia|]; split; [reflexivity|]; split; [|exact Dr].
        destruct Hc as [(Hc & _)|(k & _ & _ & Hc & _)]; lra.
    + eexists; split; [reflexivity|]; cbn [fst snd]; split; [exact Fm|]; split; [exact Hm1|]; split; [|exact Hc].
      intros j Hj; destruct (Z.eq_dec j i) as [->|]; [exists (value v); split; [lra|exact Dr]|apply Hm; lia].
  - rewrite E; cbn [bind]; destruct st as [mv u0]; cbn [fst snd] in *; destruct HI as (Fm & Hm1 & Hm & Hc).
    destruct Hc as [(Hc & ->)|(k & Hk & -> & Hc & Dk)].
    + exists 0%Z; split; [unfold N; lia|]; split; [reflexivity|]; split; [|reflexivity].
      intros (i & Hi & HD); exfalso; destruct (Hm i Hi) as (d & D1 & D2).
      pose proof (below_million _ d e t (conj (distR_nonneg _ _) HD) He Ht D2); lra.
    + exists k; split; [exact Hk|]; split; [reflexivity|]; split.
      * intros _ i Hi; destruct (Hm i Hi) as (d & D1 & D2).
        apply (closer64 _ (value mv) _ d); try assumption; try apply distR_nonneg; lra.
      * intros H; exfalso; pose proof (above_million _ _ e t (H k Hk) He Ht Dk); lra.
Qed.
Lemma guess_surf64_dot (s : surf_beh Binary64) (P : list PrimFloat.float) (q : Z -> Z -> list PrimFloat.float) nu nv :
  sb_nu s = nu -> sb_nv s = nv -> (1 <= nu)%Z -> (1 <= nv)%Z -> INR (length P) <= 1000 -> within (- 2 ^ 399) (2 ^ 399) P ->
  (forall i j, (0 <= i < 2 * nu)%Z -> (0 <= j < 2 * nv)%Z ->
     sb_point s (sample64 (2 * nu - 1) i) (sample64 (2 * nv - 1) j) = Ok (q i j : list Binary64) /\ length (q i j) = length P /\
     within (- 2 ^ 399) (2 ^ 399) (q i j)) ->
  exists k l, (0 <= k < 2 * nu)%Z /\ (0 <= l < 2 * nv)%Z /\
    initial_guess_surf_dot (K := Binary64) dot s (P : list Binary64) = Ok (sample64 (2 * nu - 1) k : Binary64, sample64 (2 * nv - 1) l : Binary64) /\
    ((exists i j, (0 <= i < 2 * nu)%Z /\ (0 <= j < 2 * nv)%Z /\ distR (values P) (values (q i j)) <= 999999) ->
     forall i j, (0 <= i < 2 * nu)%Z -> (0 <= j < 2 * nv)%Z -> distR (values P) (values (q k l)) <=
       (1 + 3 * ((2 * INR (length P) + 6) * ulp64)) * distR (values P) (values (q i j)) + / 2 ^ 518) /\
    ((forall i j, (0 <= i < 2 * nu)%Z -> (0 <= j < 2 * nv)%Z -> 1000001 <= distR (values P) (values (q i j))) -> k = 0%Z /\ l = 0%Z).
Proof.
  intros Eu Ev Hnu Hnv HK HP Hq.
  pose proof (thousand_ulp (INR (length P)) (conj (pos_INR _) HK)) as He; destruct tiny520 as (Ht & <-).
  set (e := (2 * INR (length P) + 6) * ulp64) in *; set (t := / 2 ^ 520) in *.
  unfold initial_guess_surf_dot; rewrite Eu, Ev; cbv zeta; rewrite !samples_tab64 by assumption.
  set (N := (2 * nu)%Z) in *; set (M := (2 * nv)%Z) in *; set (u := sample64 (N - 1)) in *; set (v := sample64 (M - 1)) in *.
  rewrite (aget_tab (Z.to_nat N) u 0%Z), (aget_tab (Z.to_nat M) v 0%Z) by (unfold N, M; lia); cbn [bind].
  destruct million64 as (FM & VM).
  set (close := fun (d : R) i j => Rabs (d - distR (values P) (values (q i j))) <= e * distR (values P) (values (q i j)) + t).
  set (Inv := fun (visited : Z -> Z -> Prop) (st : Binary64 * Binary64 * Binary64) =>
      finite64 (fst (fst st)) /\ value (fst (fst st)) <= 1000000 /\
      (forall i j, visited i j -> exists d, value (fst (fst st)) <= d /\ close d i j) /\
      ((value (fst (fst st)) = 1000000 /\ snd (fst st) = u 0%Z /\ snd st = v 0%Z) \/
       (exists k l, (0 <= k < N)%Z /\ (0 <= l < M)%Z /\ snd (fst st) = u k /\ snd st = v l /\ value (fst (fst st)) < 1000000 /\
         close (value (fst (fst st))) k l))).
  assert (Weak : forall (V W : Z -> Z -> Prop) st, (forall i j, W i j -> V i j) -> Inv V st -> Inv W st).
  { intros V W st H (I1 & I2 & I3 & I4); split; [exact I1|]; split; [exact I2|]; split; [|exact I4].
    intros i j Hij; apply I3, H, Hij. }
  assert (Step : forall i j V st, (0 <= i < N)%Z -> (0 <= j < M)%Z -> Inv V st ->
    exists st', guess_step2_dot (K := Binary64) dot s (P : list Binary64) (tab (Z.to_nat N) u) (tab (Z.to_nat M) v) i j st = Ok st' /\
      Inv (fun a b => V a b \/ (a = i /\ b = j)) st').
  { intros i j V [[mv u0] v0] Hi Hj (Fm & Hm1 & Hm & Hc); unfold Inv; cbn [fst snd] in *; unfold guess_step2_dot.
    rewrite (aget_tab (Z.to_nat N) u i), (aget_tab (Z.to_nat M) v j) by lia; cbn [bind].
    destruct (Hq i j Hi Hj) as (Eq & Lq & Wq); rewrite Eq; cbn [bind].
    destruct (dist64_dot P (q i j) (eq_sym Lq) HK HP Wq) as (r & Er & FD); destruct (FD [i; j]) as (Fr & Dr); fold e in Dr; fold t in Dr.
    rewrite Er; cbn [bind fst].
    change (nltb (norm (K := Binary64) dot [i; j] r) mv) with (PrimFloat.ltb (norm (K := Binary64) dot [i; j] r) mv).
    rewrite (ltb64 _ _ Fr Fm).
    set (w := norm (K := Binary64) dot [i; j] r) in *.
    destruct (Rlt_bool_spec (value w) (value mv)) as [EL|EL].
    + eexists; split; [reflexivity|]; cbn [fst snd]; split; [exact Fr|]; split; [lra|]; split.
      * intros a b [Hab|(-> & ->)]; [|exists (value w); split; [lra|exact Dr]].
        destruct (Hm a b Hab) as (d & D1 & D2); exists d; split; [lra|exact D2].
      * right; exists i, j; split; [lia|]; split; [lia|]; split; [reflexivity|]; split; [reflexivity|]; split; [|exact Dr].
        destruct Hc as [(Hc & _)|(k & l & _ & _ & _ & _ & Hc & _)]; lra.
    + eexists; split; [reflexivity|]; cbn [fst snd]; split; [exact Fm|]; split; [exact Hm1|]; split; [|exact Hc].
      intros a b [Hab|(-> & ->)]; [apply Hm; exact Hab|exists (value w); split; [lra|exact Dr]]. }
  destruct (for_range_inv (fun i st => Inv (fun a b => (0 <= a < i)%Z /\ (0 <= b < M)%Z) st) 0%Z N
    (fun u1 st => for_range 0 M (fun v1 st => guess_step2_dot (K := Binary64) dot s (P : list Binary64) (tab (Z.to_nat N) u) (tab (Z.to_nat M) v) u1 v1 st) st)
    (lit_1e6 : Binary64, u 0%Z : Binary64, v 0%Z : Binary64)) as (st & E & HI).
  - unfold N; lia.
  - unfold Inv; cbn [fst snd]; split; [exact FM|]; rewrite VM; split; [lra|]; split; [intros; lia|left; auto].
  - intros i st Hi HI.
    destruct (for_range_inv (fun j st => Inv (fun a b => ((0 <= a < i)%Z /\ (0 <= b < M)%Z) \/ (a = i /\ (0 <= b < j)%Z)) st) 0%Z M
      (fun v1 st => guess_step2_dot (K := Binary64) dot s (P : list Binary64) (tab (Z.to_nat N) u) (tab (Z.to_nat M) v) i v1 st) st) as (st' & E' & HI').
    + unfold M; lia.
    + eapply Weak; [|exact HI]; intros a b [H|H]; [exact H|lia].
    + intros j st1 Hj H1; destruct (Step i j _ st1 Hi Hj H1) as (st2 & E2 & H2).
      exists st2; split; [exact E2|]; eapply Weak; [|exact H2]; cbn beta; intros a b Hab.
      destruct Hab as [Hab|(-> & Hb)]; [left; left; exact Hab|].
      destruct (Z.eq_dec b j) as [->|]; [right; auto|left; right; split; [reflexivity|lia]].
    + exists st'; split; [exact E'|]; eapply Weak; [|exact HI']; cbn beta; intros a b Hab.
      destruct (Z.eq_dec a i) as [->|]; [right; split; [reflexivity|lia]|left; lia].
  - rewrite E; cbn [bind]; destruct st as [[mv u0] v0]; unfold Inv in HI; cbn [fst snd] in *; destruct HI as (Fm & Hm1 & Hm & Hc).
    destruct Hc as [(Hc & -> & ->)|(k & l & Hk & Hl & -> & -> & Hc & Dk)].
    + exists 0%Z, 0%Z; split; [unfold N; lia|]; split; [unfold M; lia|]; split; [reflexivity|]; split; [|auto].
      intros (i & j & Hi & Hj & HD); exfalso; destruct (Hm i j (conj Hi Hj)) as (d & D1 & D2).
      pose proof (below_million _ d e t (conj (distR_nonneg _ _) HD) He Ht D2); lra.
    + exists k, l; split; [exact Hk|]; split; [exact Hl|]; split; [reflexivity|]; split.
      * intros _ i j Hi Hj; destruct (Hm i j (conj Hi Hj)) as (d & D1 & D2).
        apply (closer64 _ (value mv) _ d); try assumption; try apply distR_nonneg; lra.
      * intros H; exfalso; pose proof (above_million _ _ e t (H k l Hk Hl) He Ht Dk); lra.
Qed.

End Dots.
