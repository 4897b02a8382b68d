(** Computed basis functions nearly sum to 1. *)
From Coq Require Import Reals Lra Lia ZArith List Floats.
From Verif Require Import Py PyLemmas Num ModelBasis ModelCurve Spec SpecB64 ProofBasis ProofB64 ProofB64Basis ProofB64Curve.
Import ListNotations.
Open Scope R_scope.

Lemma basis_functions_sum_b64 (U : list PrimFloat.float) s (x : Binary64) p :
  within 0 1 U -> nondecreasing (values U) -> finite64 x ->
  kn (values U) s <= value x <= kn (values U) (s + 1) -> / 2 ^ 1000 <= kn (values U) (s + 1) - kn (values U) s ->
  (Z.of_nat p - 1 <= s)%Z -> (0 <= s)%Z -> (s + Z.of_nat p < len U)%Z -> (s + 1 < len U)%Z -> INR p <= 2 ^ 40 ->
  exists B : list PrimFloat.float, basis_functions s x (Z.of_nat p) U = Ok (B : list Binary64) /\ length B = S p /\
    Forall (fun b => finite64 b /\ 0 <= value b) B /\
    error1 (values B) (map (fun r => piece (values U) s p (s - Z.of_nat p + Z.of_nat r) (value x)) (seq 0 (S p)))
      <= 8 * INR p * ulp64 /\
    Rabs (fold_right Rplus 0 (values B) - 1) <= 8 * INR p * ulp64.
Proof.
  intros HW HU Fx Hx Hg H1 H2 H3 H4 Hp.
  destruct (basis_functions_b64 U s x p HW HU Fx Hx Hg H1 H2 H3 H4 Hp) as (B & E & L & F & Er).
  exists B; split; [exact E|]; split; [exact L|]; split; [exact F|]; split; [exact Er|].
  assert (0 < / 2 ^ 1000) by (apply Rinv_0_lt_compat, pow_lt; lra).
  pose proof (pieces_sum (values U) s p (value x) HU ltac:(lra)) as P1.
  rewrite <- P1; eapply Rle_trans; [apply sumR_error|exact Er].
  unfold values, pieces; rewrite map_length, tab_length; exact L.
Qed.
