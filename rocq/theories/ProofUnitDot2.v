(** Lengths of vectors on binary64 numbers from dot products of any kind
    (SpecDot.v). *)
From Coq Require Import Reals Lra Lia ZArith List Bool Permutation Floats.
From Flocq Require Import Core.Core.
From Verif Require Import Py PyLemmas Num ModelKnots ModelBasis ModelSurface ModelDot ModelDotParam Spec SpecB64 SpecDot
  ProofNum ProofParam ProofB64 ProofB64Basis ProofB64Span ProofB64Curve ProofB64Knots ProofB64Norm
  ProofB64Ders3 ProofDot ProofDotParam2 ProofUnitRow2 ProofUnitRow3 ProofUnitRow4.
Import ListNotations.
Open Scope R_scope.

Definition pr (p : PrimFloat.float * PrimFloat.float) : R := value (fst p) * value (snd p).
(** At most one of the products is not 0. *)
Fixpoint lone (l : list (PrimFloat.float * PrimFloat.float)) : Prop :=
  match l with
  | [] => True
  | p :: l => (pr p = 0 /\ lone l) \/ Forall (fun q => pr q = 0) l
  end.
Notation zeros := (Forall (fun q => pr q = 0)).
Lemma zeros_lone l : zeros l -> lone l.
Proof. induction 1 as [|p l H _ IH]; cbn; auto. Qed.
Lemma zeros_sum l : zeros l -> psum l = 0.
Proof. induction 1 as [|p l H _ IH]; [reflexivity|]; unfold psum in *; cbn [map fold_right]; unfold pr in H; lra. Qed.
Lemma lone_app l1 l2 : lone (l1 ++ l2) -> (zeros l1 /\ lone l2) \/ (lone l1 /\ zeros l2).
Proof.
  induction l1 as [|p l1 IH]; cbn [app lone]; intros H; [left; auto|].
  destruct H as [(Z & H)|H].
  - destruct (IH H) as [(A & B)|(A & B)]; [left; split; [constructor|]; assumption|right; split; [left; split|]; assumption].
  - apply Forall_app in H; right; split; [right|]; apply H.
Qed.
Lemma lone_perm l l' : Permutation l l' -> lone l -> lone l'.
Proof.
  induction 1 as [|p l l' HP IH|p q l|l l' l'' _ IH1 _ IH2]; cbn [lone]; auto.
  - intros [(Z & H)|H]; [left; auto|right; eapply Permutation_Forall; eassumption].
  - intros [(Z & [(Z' & H)|H])|H].
    + left; auto.
    + right; constructor; assumption.
    + left; split; [exact (Forall_inv H)|right; exact (Forall_inv_tail H)].
Qed.

Lemma near_0 v : near 0 v -> v = 0.
Proof. unfold near; rewrite rnd_0, Rminus_0_r, Rminus_0_r, Rabs_R0; intros H; pose proof (Rabs_pos v); apply Rabs_eq_R0; lra. Qed.
Lemma near_fmt (a : PrimFloat.float) : near (value a) (value a).
Proof. unfold near; rewrite !Rminus_diag_eq, Rabs_R0 by (reflexivity || apply rnd_fmt, value_fmt); apply Rle_refl. Qed.
(** A nearest double to something at least [p] is at least a nearest double to [p]. *)
Lemma near_above p v q r : Rabs (r - v) <= Rabs (q - v) -> p <= v -> q = rnd p -> exists y, near p y /\ y <= r.
Proof.
  intros HR HV HQ; destruct (Rle_lt_dec q r) as [L|L].
  - exists q; split; [unfold near; rewrite HQ; apply Rle_refl|exact L].
  - exists r; split; [|apply Rle_refl]; unfold near; rewrite <- HQ.
    assert (M : v <= (r + q) / 2).
    { destruct (Rle_lt_dec v ((r + q) / 2)) as [M|M]; [exact M|exfalso].
      revert HR; unfold Rabs; destruct (Rcase_abs (r - v)), (Rcase_abs (q - v)); lra. }
    rewrite (Rabs_right (q - p)) by lra; apply Rabs_le; lra.
Qed.
Lemma dotted_near l r : dotted64 l r -> Forall pfin l -> Forall psign l -> INR (length l) <= 2 ^ 41 -> pabs l <= 2 ^ 990 ->
  finite64 r /\ 0 <= value r /\
  (forall p, In p l -> exists y, near (pr p) y /\ y <= value r) /\
  (lone l -> near (psum l) (value r)).
Proof.
  assert (Big : 4 * 2 ^ 990 + 4 <= 2 ^ 1023).
  { replace (2 ^ 1023) with (2 ^ 990 * 2 ^ 33) by (rewrite <- pow_add; reflexivity).
    assert (1 <= 2 ^ 990) by (apply pow_R1_Rle; lra); generalize dependent (2 ^ 990); clear; intros z H; cbn [pow]; lra. }
  assert (Bnd : forall l a, dotted64 l a -> Forall pfin l -> INR (length l) <= 2 ^ 41 -> pabs l <= 2 ^ 990 -> finite64 a /\ Rabs (value a) <= 2 * pabs l + 1).
  { clear l r; intros l a D F L A; destruct (dotted_err l a D F L A) as (Fa & Ea); split; [exact Fa|].
    pose proof (slack_small (length l) (pabs l) L (pabs_nonneg l)); pose proof (psum_abs l).
    replace (value a) with (psum l + (value a - psum l)) by ring; eapply Rle_trans; [apply Rabs_triang|]; lra. }
  intros D FL SL HN HA; split; [apply (Bnd l r D FL HN HA)|]; split; [apply (dotted_nonneg l r D FL SL HN HA)|]; revert D FL SL HN HA.
  induction 1 as [|x y|l1 l2 a b D1 IH1 D2 IH2|l x y a r D IH HF|l l' a HP D IH]; intros FL SL HN HA.
  - split; [intros p []|intros _; unfold psum; cbn [map fold_right]; rewrite <- value_0; apply near_fmt].
  - inversion FL as [|? ? (Fx & Fy) _]; subst; cbn [fst snd] in *.
    unfold pabs in HA; cbn [map fold_right fst snd] in HA; rewrite Rplus_0_r in HA.
    destruct (mul64 x y Fx Fy) as (_ & Vm).
    { apply rnd_safe with 990%Z; [lia|]; rewrite p990; exact HA. }
    assert (N : near (value x * value y) (value (x * y)%float)) by (unfold near; rewrite Vm; apply Rle_refl).
    split.
    + intros p [<-|[]]; eexists; split; [exact N|apply Rle_refl].
    + intros _; unfold psum; cbn [map fold_right fst snd]; rewrite Rplus_0_r; exact N.
  - apply Forall_app in FL; destruct FL as (F1 & F2); apply Forall_app in SL; destruct SL as (S1 & S2); rewrite app_length, plus_INR in HN; rewrite pabs_app in HA.
    pose proof (pabs_nonneg l1) as A1; pose proof (pabs_nonneg l2) as A2.
    pose proof (pos_INR (length l1)) as N1; pose proof (pos_INR (length l2)) as N2.
    destruct (Bnd l1 a D1 F1 ltac:(lra) ltac:(lra)) as (Fa & Ba); destruct (Bnd l2 b D2 F2 ltac:(lra) ltac:(lra)) as (Fb & Bb).
    pose proof (dotted_nonneg l1 a D1 F1 S1 ltac:(lra) ltac:(lra)) as Pa; pose proof (dotted_nonneg l2 b D2 F2 S2 ltac:(lra) ltac:(lra)) as Pb.
    specialize (IH1 F1 S1 ltac:(lra) ltac:(lra)); specialize (IH2 F2 S2 ltac:(lra) ltac:(lra)).
    destruct (add64 a b Fa Fb) as (_ & Vs).
    { apply rnd_safe with 1023%Z; [lia|]; replace (bpow radix2 1023) with (2 ^ 1023) by (rewrite bpow_powerRZ; reflexivity).
      eapply Rle_trans; [apply Rabs_triang|]; lra. }
    assert (Ga : value a <= value (a + b)%float) by (rewrite Vs, <- (rnd_fmt (value a) (value_fmt a)) at 1; apply rnd_le; lra).
    assert (Gb : value b <= value (a + b)%float) by (rewrite Vs, <- (rnd_fmt (value b) (value_fmt b)) at 1; apply rnd_le; lra).
    split.
    + intros p HI; apply in_app_or in HI; destruct HI as [HI|HI]; [destruct (proj1 IH1 p HI) as (z & N & B)|destruct (proj1 IH2 p HI) as (z & N & B)]; exists z; (split; [exact N|lra]).
    + intros HL; rewrite psum_app, Vs; destruct (lone_app _ _ HL) as [(HZ & HL')|(HL' & HZ)].
      * pose proof (proj2 IH1 (zeros_lone _ HZ)) as Q; rewrite (zeros_sum _ HZ) in Q |- *; rewrite (near_0 _ Q), !Rplus_0_l, (rnd_fmt _ (value_fmt b)); apply IH2; exact HL'.
      * pose proof (proj2 IH2 (zeros_lone _ HZ)) as Q; rewrite (zeros_sum _ HZ) in Q |- *; rewrite (near_0 _ Q), !Rplus_0_r, (rnd_fmt _ (value_fmt a)); apply IH1; exact HL'.
  - inversion FL as [|? ? (Fx & Fy) F1]; inversion SL as [|? ? S S1]; subst; unfold psign in S; cbn [fst snd] in *; cbn [length] in HN; rewrite S_INR in HN.
    assert (EA : pabs ((x, y) :: l) = pabs l + Rabs (value x * value y)) by (unfold pabs; cbn [map fold_right fst snd]; ring).
    assert (ES : psum ((x, y) :: l) = value x * value y + psum l) by reflexivity.
    rewrite EA in HA; pose proof (pabs_nonneg l) as A1; pose proof (pos_INR (length l)) as N1; pose proof (Rabs_pos (value x * value y)) as X0.
    destruct (Bnd l a D F1 ltac:(lra) ltac:(lra)) as (Fa & Ba).
    pose proof (dotted_nonneg l a D F1 S1 ltac:(lra) ltac:(lra)) as Pa.
    specialize (IH F1 S1 ltac:(lra) ltac:(lra)).
    destruct (HF Fx Fy Fa) as (_ & Near).
    { eapply Rle_trans; [apply Rabs_triang|]; lra. }
    set (v := value x * value y + value a) in *.
    destruct (mul64 x y Fx Fy) as (Fm & Vm).
    { apply rnd_safe with 990%Z; [lia|]; rewrite p990; lra. }
    pose proof (Near a Fa) as Na; pose proof (Near (x * y)%float Fm) as Nm.
    assert (Ga : value a <= value r).
    { assert (value a <= v) by (unfold v; lra); rewrite (Rabs_left1 (value a - v)) in Na by lra; apply Rabs_le_inv in Na; lra. }
    split.
    + intros p [<-|HI].
      * apply (near_above _ v (value (x * y)%float)); [exact Nm|unfold v, pr; cbn [fst snd]; lra|exact Vm].
      * destruct (proj1 IH p HI) as (z & N & B); exists z; split; [exact N|lra].
    + intros HL; rewrite ES; cbn [lone] in HL; unfold pr in HL; cbn [fst snd] in HL; destruct HL as [(HZ & HL)|HZ].
      * unfold v in *; rewrite HZ, Rplus_0_l in *; rewrite (Rminus_diag_eq (value a)), Rabs_R0 in Na by reflexivity.
        assert (EQ : value r = value a) by (apply Rabs_le_inv in Na; lra); rewrite EQ; apply IH; exact HL.
      * pose proof (proj2 IH (zeros_lone _ HZ)) as Q; rewrite (zeros_sum _ HZ) in Q |- *; unfold v in Nm; rewrite (near_0 _ Q), Rplus_0_r in Nm.
        rewrite Rplus_0_r; unfold near; rewrite <- Vm; exact Nm.
  - assert (IH' : (forall p, In p l -> exists y, near (pr p) y /\ y <= value a) /\ (lone l -> near (psum l) (value a))).
    { apply IH.
      + rewrite Forall_forall in *; intros z Hz; apply FL; eapply Permutation_in; eassumption.
      + rewrite Forall_forall in *; intros z Hz; apply SL; eapply Permutation_in; eassumption.
      + rewrite (Permutation_length HP); exact HN.
      + rewrite (pabs_perm _ _ HP); exact HA. }
    split.
    + intros p HI; apply IH'; eapply Permutation_in; [apply Permutation_sym; exact HP|exact HI].
    + intros HL; rewrite <- (psum_perm _ _ HP); apply IH'; eapply lone_perm; [apply Permutation_sym; exact HP|exact HL].
Qed.

Section Dots.
Variable dot : list Z -> list PrimFloat.float -> list PrimFloat.float -> PrimFloat.float.
Hypothesis DOT : dots64 dot.
Lemma norm_len site (r : list PrimFloat.float) : len_ok r (PrimFloat.sqrt (dot site r r)).
Proof.
  intros L W; destruct (self_pairs r W) as (PF & PS & PL & PE & PA & S3).
  pose proof (DOT site r r eq_refl) as DD; rewrite L in S3, PL.
  assert (K41 : INR 3 <= 2 ^ 41) by (replace (2 ^ 41) with (2 ^ 2 * 2 ^ 39) by (rewrite <- pow_add; reflexivity); assert (1 <= 2 ^ 39) by (apply pow_R1_Rle; lra); cbn [INR]; cbn [pow] in *; lra).
  assert (S990 : dotR (values r) (values r) <= 2 ^ 990).
  { apply Rle_trans with (1 := S3); replace (2 ^ 990) with (2 ^ 190 * 2 ^ 800) by (rewrite <- pow_add; reflexivity).
    apply Rmult_le_compat_r; [apply pow_le; lra|].
    replace (2 ^ 190) with (2 ^ 10 * 2 ^ 180) by (rewrite <- pow_add; reflexivity); assert (1 <= 2 ^ 180) by (apply pow_R1_Rle; lra); cbn [pow INR] in *; lra. }
  destruct (dotted_near _ _ DD PF PS) as (Fs & Ps & HI & HL); [rewrite PL; exact K41|rewrite PA; exact S990|].
  destruct (vnorm64_dot dot DOT site r W ltac:(rewrite L; cbn; lra)) as (F & E).
  rewrite L in E; replace (2 * INR 3 + 4) with 10 in E by (cbn; lra); change (norm (K := Binary64) dot site r) with (PrimFloat.sqrt (dot site r r)) in F, E.
  split.
  - apply norm_top; try assumption; rewrite (proj2 (sqrt64 _ Fs Ps)); apply rnd_nonneg, sqrt_pos.
  - exists (dot site r r); split; [reflexivity|]; split; [exact Fs|]; split; [exact Ps|]; split.
    + intros c Hc; apply (HI (nth c r 0%float, nth c r 0%float)).
      rewrite <- (combine_nth r r c 0%float 0%float eq_refl); apply nth_In; rewrite PL; exact Hc.
    + intros c Hc HZ; destruct r as [|x [|y [|z [|]]]]; try discriminate L.
      unfold psum in HL; cbn [combine map fold_right fst snd lone] in HL; unfold pr in HL; cbn [fst snd] in HL.
      assert (ZZ : forall t, t = 0 -> t * t = 0) by (intros t ->; ring).
      destruct c as [|[|[|c]]]; [| | |lia]; cbn [nth] in *.
      * pose proof (ZZ _ (HZ 1%nat ltac:(lia) ltac:(lia))) as Z1; pose proof (ZZ _ (HZ 2%nat ltac:(lia) ltac:(lia))) as Z2; cbn [nth] in Z1, Z2.
        rewrite Z1, Z2, !Rplus_0_r in HL; apply HL; right; repeat constructor; unfold pr; cbn [fst snd]; assumption.
      * pose proof (ZZ _ (HZ 0%nat ltac:(lia) ltac:(lia))) as Z1; pose proof (ZZ _ (HZ 2%nat ltac:(lia) ltac:(lia))) as Z2; cbn [nth] in Z1, Z2.
        rewrite Z1, Z2, !Rplus_0_r, Rplus_0_l in HL; apply HL; left; split; [reflexivity|]; right; repeat constructor; unfold pr; cbn [fst snd]; assumption.
      * pose proof (ZZ _ (HZ 0%nat ltac:(lia) ltac:(lia))) as Z1; pose proof (ZZ _ (HZ 1%nat ltac:(lia) ltac:(lia))) as Z2; cbn [nth] in Z1, Z2.
        rewrite Z1, Z2, Rplus_0_r, !Rplus_0_l in HL; apply HL; left; split; [reflexivity|]; left; split; [reflexivity|]; right; constructor.
Qed.
End Dots.
