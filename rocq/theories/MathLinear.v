(** Linear precision of B-splines: the control values whose curve is the identity. *)
From Coq Require Import ZArith Reals Lra Lia.
From Verif Require Import Spec MathCox.
Open Scope R_scope.

(** Sum of the [p] knots after the first of the support of N_{i,p}. *)
Definition knot_sum (U : Z -> R) (p : nat) (i : Z) : R := zsum (i + 1) p U.
Lemma knot_sum_S U q i : knot_sum U (S q) i = knot_sum U q i + U (i + Z.of_nat q + 1)%Z.
Proof. unfold knot_sum; cbn [zsum]; f_equal; f_equal; lia. Qed.
Lemma knot_sum_prev U q i : knot_sum U (S q) (i - 1) = U i + knot_sum U q i.
Proof. unfold knot_sum; rewrite zsum_first; do 2 f_equal; lia. Qed.

Section Linear.
Variables (U : Z -> R) (s : Z) (p : nat).
Hypothesis (Hs : U s < U (s + 1)%Z).
Hypothesis (Hm : forall i j, (s - Z.of_nat p + 1 <= i <= j)%Z -> (j <= s + Z.of_nat p)%Z -> U i <= U j).
Lemma cox_linear u : forall q, (q <= p)%nat ->
  zsum (s - Z.of_nat q) (S q) (fun i => cox (delta s) U q i u * knot_sum U q i) = INR q * u.
Proof.
  induction q as [|q IH]; intros Hq.
  - cbn; ring.
  - specialize (IH ltac:(lia)).
    rewrite (zsum_ext _ _ _ (fun i => (u - U i) * Mx (delta s) U q i u * knot_sum U (S q) i +
      (U (i + Z.of_nat q + 2)%Z - u) * Mx (delta s) U q (i + 1) u * knot_sum U (S q) i)) by (intros; rewrite cox_S; ring).
    rewrite zsum_plus.
    rewrite zsum_first.
    assert (E0 : Mx (delta s) U q (s - Z.of_nat (S q)) u = 0).
    { unfold Mx; rewrite cox_support by lia; apply sdiv_0_l. }
    rewrite E0, Rmult_0_r, Rmult_0_l, Rplus_0_l.
    assert (E2 : zsum (s - Z.of_nat (S q)) (S (S q))
        (fun i => (U (i + Z.of_nat q + 2)%Z - u) * Mx (delta s) U q (i + 1) u * knot_sum U (S q) i)
      = zsum (s - Z.of_nat q) (S q)
        (fun i => (U (i + Z.of_nat q + 1)%Z - u) * Mx (delta s) U q i u * knot_sum U (S q) (i - 1))).
    { replace (s - Z.of_nat q)%Z with (s - Z.of_nat (S q) + 1)%Z by lia.
      rewrite zsum_shift; cbn [zsum].
      match goal with |- _ + _ + ?x = _ => assert (Ex : x = 0) end.
      { unfold Mx; rewrite cox_support by lia; rewrite sdiv_0_l; ring. }
      rewrite Ex, Rplus_0_r; f_equal.
      - apply zsum_ext; intros i Hi; f_equal; [f_equal; f_equal; f_equal; lia|f_equal; lia].
      - f_equal; [f_equal; f_equal; f_equal; lia|f_equal; lia]. }
    rewrite E2.
    replace (s - Z.of_nat (S q) + 1)%Z with (s - Z.of_nat q)%Z by lia.
    rewrite <- zsum_plus, S_INR, Rmult_plus_distr_r, Rmult_1_l, <- IH.
    pose proof (cox_unity U s p Hs Hm u q ltac:(lia)) as HU.
    transitivity (zsum (s - Z.of_nat q) (S q) (fun i => cox (delta s) U q i u * knot_sum U q i + u * cox (delta s) U q i u));
      [|rewrite zsum_plus, zsum_scal, HU; ring].
    apply zsum_ext; intros i Hi.
    rewrite knot_sum_S, knot_sum_prev.
    rewrite <- (Mx_span U s p Hs Hm q i u) by lia; ring.
Qed.
End Linear.
