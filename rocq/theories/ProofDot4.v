(** Dot products from left to right, from right to left and by fused multiply-adds. *)
From Coq Require Import Reals Lra Lia ZArith List Floats Permutation.
From Flocq Require Import Core.Core IEEE754.BinarySingleNaN IEEE754.PrimFloat.
From Verif Require Import Py Num SpecB64 SpecDot ProofB64 ProofB64Basis ProofDot.
Import ListNotations.
Open Scope R_scope.

Lemma dotted_fold l : forall l0 a, dotted64 l0 a ->
  dotted64 (l0 ++ l) (fold_left PrimFloat.add (map (fun xy => PrimFloat.mul (fst xy) (snd xy)) l) a).
Proof.
  induction l as [|(x, y) l IH]; intros l0 a H; cbn [map fold_left fst snd]; [rewrite app_nil_r; exact H|].
  change ((x, y) :: l) with ([(x, y)] ++ l); rewrite app_assoc; apply IH; constructor; [exact H|constructor].
Qed.
Definition dot_reversed (_ : list Z) (a b : list PrimFloat.float) : PrimFloat.float :=
  fold_left PrimFloat.add (rev (map (fun xy => PrimFloat.mul (fst xy) (snd xy)) (combine a b))) 0%float.
Definition fma64 (x y a : PrimFloat.float) : PrimFloat.float :=
  B2Prim (Bfma (prec_gt_0_ := Hprec) (prec_lt_emax_ := Hmax) mode_NE (Prim2B x) (Prim2B y) (Prim2B a)).
Definition dot_fused (_ : list Z) (a b : list PrimFloat.float) : PrimFloat.float :=
  fold_right (fun xy acc => fma64 (fst xy) (snd xy) acc) 0%float (combine a b).

Lemma dots_left : dots64 (fun _ => vdot (K := Binary64)).
Proof. intros site a b _; exact (dotted_fold (combine a b) [] 0%float dotted_nil). Qed.
Lemma dots_reversed : dots64 dot_reversed.
Proof.
  intros site a b _; unfold dot_reversed; rewrite <- map_rev.
  apply dotted_perm with (rev (combine a b)); [apply Permutation_sym, Permutation_rev|].
  exact (dotted_fold (rev (combine a b)) [] 0%float dotted_nil).
Qed.
Lemma fma_fused x y a : fused64 x y a (fma64 x y a).
Proof.
  intros Fx Fy Fa HB.
  assert (HR : Rabs (rnd (value x * value y + value a)) < bpow radix2 1024).
  { apply rnd_safe with 1023%Z; [lia|]; replace (bpow radix2 1023) with (2 ^ 1023) by (rewrite bpow_powerRZ; reflexivity); exact HB. }
  assert (H : finite64 (fma64 x y a) /\ value (fma64 x y a) = rnd (value x * value y + value a)).
  { unfold fma64; rewrite !finite_B in *; rewrite !value_B in *; rewrite Prim2B_B2Prim.
    pose proof (Bfma_correct prec emax Hprec Hmax mode_NE _ _ _ Fx Fy Fa) as H; cbv zeta in H.
    rewrite fexp_FLT in H; cbn [round_mode] in H; rewrite Rlt_bool_true in H by exact HR.
    split; apply H. }
  destruct H as (H1 & H2); split; [exact H1|]; intros z Fz; rewrite H2.
  apply (round_N_pt radix2 (FLT_exp (-1074) 53) (fun x => negb (Z.even x)) (value x * value y + value a)); apply value_fmt.
Qed.
Lemma dots_fused : dots64 dot_fused.
Proof.
  intros site a b _; unfold dot_fused; induction (combine a b) as [|(x, y) l IH]; cbn [fold_right fst snd]; [constructor|].
  eapply dotted_fma; [exact IH|apply fma_fused].
Qed.
