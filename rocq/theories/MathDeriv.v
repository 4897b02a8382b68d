(** Derivatives of the Cox-de Boor functions (as polynomials in the parameter,
    the degree-0 values being constants). *)
From Verif Require Import Spec MathCox.
Open Scope R_scope.

Section Deriv.
Variables (B U : Z -> R).
Hypothesis Umono : forall i j, (i <= j)%Z -> U i <= U j.

(** k-th derivative, by the derivative recursion. *)
Fixpoint Dx (k p : nat) (i : Z) (u : R) {struct k} : R :=
  match k with
  | O => cox B U p i u
  | S m =>
      match p with
      | O => 0
      | S q => INR (S q) *
          (sdiv (Dx m q i u) (U (i + Z.of_nat q + 1)%Z - U i)
           - sdiv (Dx m q (i + 1) u) (U (i + Z.of_nat q + 2)%Z - U (i + 1)%Z))
      end
  end.

Lemma derivable_sdiv f g x w :
  derivable_pt_lim f x g -> derivable_pt_lim (fun u => sdiv (f u) w) x (sdiv g w).
Proof.
  intros H; unfold sdiv; destruct (Req_EM_T w 0).
  - apply derivable_pt_lim_const.
  - replace (g / w) with (/ w * g) by (field; assumption).
    apply (derivable_pt_lim_ext (fun u => / w * f u)); [intros; field; assumption|].
    apply (derivable_pt_lim_scal f (/ w)); exact H.
Qed.

Lemma Dx_1 q i u : Dx 1 (S q) i u = INR (S q) * (Mx B U q i u - Mx B U q (i + 1) u).
Proof.
  cbn [Dx]; unfold Mx.
  replace (i + 1 + Z.of_nat q + 1)%Z with (i + Z.of_nat q + 2)%Z by lia; reflexivity.
Qed.

Lemma derivable_lin_l a x : derivable_pt_lim (fun u => u - a) x 1.
Proof.
  replace 1 with (1 - 0) by ring.
  apply (derivable_pt_lim_minus (fun u => u) (fun _ => a));
    [apply derivable_pt_lim_id|apply derivable_pt_lim_const].
Qed.
Lemma derivable_lin_r a x : derivable_pt_lim (fun u => a - u) x (-1).
Proof.
  replace (-1) with (0 - 1) by ring.
  apply (derivable_pt_lim_minus (fun _ => a) (fun u => u));
    [apply derivable_pt_lim_const|apply derivable_pt_lim_id].
Qed.

Lemma cox_derivable p : forall i x, derivable_pt_lim (fun u => cox B U p i u) x (Dx 1 p i x).
Proof.
  induction p as [|q IH]; intros i x.
  - cbn; apply derivable_pt_lim_const.
  - rewrite Dx_1.
    assert (HM : forall i, derivable_pt_lim (fun u => Mx B U q i u) x
                   (sdiv (Dx 1 q i x) (U (i + Z.of_nat q + 1)%Z - U i))).
    { intros j; unfold Mx; apply derivable_sdiv, IH. }
    apply (derivable_pt_lim_ext (fun u => (u - U i) * Mx B U q i u
             + (U (i + Z.of_nat q + 2)%Z - u) * Mx B U q (i + 1) u));
      [intros; symmetry; apply cox_S|].
    set (m1 := sdiv (Dx 1 q i x) (U (i + Z.of_nat q + 1)%Z - U i)).
    set (m2 := sdiv (Dx 1 q (i + 1) x) (U (i + 1 + Z.of_nat q + 1)%Z - U (i + 1)%Z)).
    assert (D : derivable_pt_lim (fun u => (u - U i) * Mx B U q i u
             + (U (i + Z.of_nat q + 2)%Z - u) * Mx B U q (i + 1) u) x
        ((1 * Mx B U q i x + (x - U i) * m1)
         + ((-1) * Mx B U q (i + 1) x + (U (i + Z.of_nat q + 2)%Z - x) * m2))).
    { apply (derivable_pt_lim_plus (fun u => (u - U i) * Mx B U q i u)
               (fun u => (U (i + Z.of_nat q + 2)%Z - u) * Mx B U q (i + 1) u)).
      - apply (derivable_pt_lim_mult (fun u => u - U i) (fun u => Mx B U q i u));
          [apply derivable_lin_l|apply HM].
      - apply (derivable_pt_lim_mult (fun u => U (i + Z.of_nat q + 2)%Z - u)
                 (fun u => Mx B U q (i + 1) u)); [apply derivable_lin_r|apply HM]. }
    match goal with |- derivable_pt_lim _ _ ?g => match type of D with derivable_pt_lim _ _ ?h =>
      replace g with h; [exact D|] end end.
    destruct q as [|q].
    + unfold m1, m2; cbn [Dx]; rewrite !sdiv_0_l; cbn [INR]; ring.
    + assert (E : (x - U i) * m1 + (U (i + Z.of_nat (S q) + 2)%Z - x) * m2
                  = INR (S q) * (Mx B U (S q) i x - Mx B U (S q) (i + 1) x)).
      { unfold m1, m2; rewrite !Dx_1.
        unfold Mx at 5 6; rewrite !cox_S, !zn_S.
        replace (i + 1 + Z.of_nat q + 2)%Z with (i + Z.of_nat q + 3)%Z by lia.
        replace (i + (Z.of_nat q + 1) + 2)%Z with (i + Z.of_nat q + 3)%Z by lia.
        replace (i + (Z.of_nat q + 1) + 1)%Z with (i + Z.of_nat q + 2)%Z by lia.
        replace (i + 1 + (Z.of_nat q + 1) + 1)%Z with (i + Z.of_nat q + 3)%Z by lia.
        replace (i + 1 + 1)%Z with (i + 2)%Z by lia.
        set (N := INR (S q)).
        assert (HB : U (i + Z.of_nat q + 2)%Z = U i \/ U (i + Z.of_nat q + 3)%Z = U (i + 1)%Z ->
                     Mx B U q (i + 1) x = 0).
        { intros H; unfold Mx.
          replace (U (i + 1 + Z.of_nat q + 1)%Z - U (i + 1)%Z) with 0; [apply sdiv_0_r|].
          replace (i + 1 + Z.of_nat q + 1)%Z with (i + Z.of_nat q + 2)%Z by lia.
          pose proof (Umono i (i + 1) ltac:(lia)).
          pose proof (Umono (i + 1) (i + Z.of_nat q + 2) ltac:(lia)).
          pose proof (Umono (i + Z.of_nat q + 2) (i + Z.of_nat q + 3) ltac:(lia)).
          destruct H; lra. }
        unfold sdiv.
        destruct (Req_EM_T (U (i + Z.of_nat q + 2)%Z - U i) 0);
          destruct (Req_EM_T (U (i + Z.of_nat q + 3)%Z - U (i + 1)%Z) 0);
          [ring | rewrite HB by (left; lra); field; assumption
          | rewrite HB by (right; lra); field; assumption | field; split; assumption]. }
      rewrite (S_INR (S q)).
      transitivity (Mx B U (S q) i x - Mx B U (S q) (i + 1) x
        + ((x - U i) * m1 + (U (i + Z.of_nat (S q) + 2)%Z - x) * m2)); [ring|rewrite E; ring].
Qed.

Lemma Dx_derivable k : forall p i x, derivable_pt_lim (fun u => Dx k p i u) x (Dx (S k) p i x).
Proof.
  induction k as [|k IH]; intros p i x; [apply cox_derivable|].
  destruct p as [|q]; [cbn; apply derivable_pt_lim_const|].
  change (Dx (S (S k)) (S q) i x) with (INR (S q) *
          (sdiv (Dx (S k) q i x) (U (i + Z.of_nat q + 1)%Z - U i)
           - sdiv (Dx (S k) q (i + 1) x) (U (i + Z.of_nat q + 2)%Z - U (i + 1)%Z))).
  apply (derivable_pt_lim_ext (fun u => INR (S q) *
          (sdiv (Dx k q i u) (U (i + Z.of_nat q + 1)%Z - U i)
           - sdiv (Dx k q (i + 1) u) (U (i + Z.of_nat q + 2)%Z - U (i + 1)%Z))));
    [reflexivity|].
  apply (derivable_pt_lim_scal (fun u => sdiv (Dx k q i u) (U (i + Z.of_nat q + 1)%Z - U i)
           - sdiv (Dx k q (i + 1) u) (U (i + Z.of_nat q + 2)%Z - U (i + 1)%Z))).
  apply (derivable_pt_lim_minus (fun u => sdiv (Dx k q i u) (U (i + Z.of_nat q + 1)%Z - U i))
           (fun u => sdiv (Dx k q (i + 1) u) (U (i + Z.of_nat q + 2)%Z - U (i + 1)%Z)));
    apply derivable_sdiv, IH.
Qed.

Lemma Dx_nth_derivative k p i : nth_derivative k (cox B U p i) (Dx k p i).
Proof.
  induction k as [|k IH]; [intros x; reflexivity|].
  exists (Dx k p i); split; [exact IH|intros x; apply Dx_derivable].
Qed.

(** ** Coefficients of algorithm A2.3 *)
Fixpoint acoef (p : nat) (i : Z) (k : nat) (j : Z) : R :=
  match k with
  | O => if (j =? 0)%Z then 1 else 0
  | S m => sdiv (acoef p i m j - acoef p i m (j - 1))
                (U (i + Z.of_nat p + j - Z.of_nat m)%Z - U (i + j)%Z)
  end.

Lemma acoef_out p i k j : (j < 0 \/ Z.of_nat k < j)%Z -> acoef p i k j = 0.
Proof.
  revert j; induction k as [|k IH]; intros j Hj; cbn [acoef].
  - destruct (Z.eqb_spec j 0); [lia|reflexivity].
  - rewrite !IH by lia; unfold Rminus; rewrite Ropp_0, Rplus_0_r; apply sdiv_0_l.
Qed.

(** p (p-1) ... (p-k+1) *)
Fixpoint ffact (p k : nat) : R :=
  match k with O => 1 | S m => ffact p m * INR (p - m) end.

Lemma derivable_zsum a n (f : Z -> R -> R) g x :
  (forall i, derivable_pt_lim (f i) x (g i)) ->
  derivable_pt_lim (fun u => zsum a n (fun i => f i u)) x (zsum a n g).
Proof.
  intros H; induction n as [|n IH]; cbn [zsum]; [apply derivable_pt_lim_const|].
  apply (derivable_pt_lim_plus (fun u => zsum a n (fun i => f i u)) (f (a + Z.of_nat n)%Z));
    [exact IH|apply H].
Qed.

Lemma Dx_coef p i : forall k, (k <= p)%nat -> forall u,
  Dx k p i u = ffact p k *
    zsum 0 (S k) (fun j => acoef p i k j * cox B U (p - k) (i + j) u).
Proof.
  induction k as [|k IH]; intros Hk u.
  - cbn [Dx ffact zsum acoef]; rewrite Nat.sub_0_r; cbn [Z.of_nat].
    replace (i + (0 + 0))%Z with i by lia; cbn; ring.
  - eapply uniqueness_limite; [apply Dx_derivable|].
    apply (derivable_pt_lim_ext (fun u => ffact p k *
      zsum 0 (S k) (fun j => acoef p i k j * cox B U (p - k) (i + j) u)));
      [intros t; symmetry; apply IH; lia|].
    destruct (p - k)%nat as [|q] eqn:Eq; [lia|].
    assert (Eq' : (p - S k)%nat = q) by lia; rewrite Eq'.
    match goal with |- derivable_pt_lim _ _ ?g => replace g with
      (ffact p k * zsum 0 (S k) (fun j => acoef p i k j * Dx 1 (S q) (i + j) u)) end.
    + apply (derivable_pt_lim_scal (fun u => zsum 0 (S k)
        (fun j => acoef p i k j * cox B U (S q) (i + j) u))).
      apply (derivable_zsum 0 (S k) (fun j u => acoef p i k j * cox B U (S q) (i + j) u)).
      intros j; apply (derivable_pt_lim_scal (fun u => cox B U (S q) (i + j) u)), cox_derivable.
    + cbn [ffact]; rewrite Eq, Rmult_assoc; f_equal.
      rewrite (zsum_ext 0 (S k) _ (fun j => INR (S q) *
        (acoef p i k j * Mx B U q (i + j) u - acoef p i k j * Mx B U q (i + j + 1) u)))
        by (intros j _; rewrite Dx_1; ring).
      rewrite zsum_scal; f_equal.
      rewrite zsum_minus.
      rewrite (zsum_ext 0 (S (S k)) _ (fun j =>
        acoef p i k j * Mx B U q (i + j) u - acoef p i k (j - 1) * Mx B U q (i + j) u)).
      2:{ intros j Hj; cbn [acoef]; unfold Mx.
          replace (i + j + Z.of_nat q + 1)%Z with (i + Z.of_nat p + j - Z.of_nat k)%Z by lia.
          unfold sdiv; destruct (Req_EM_T _ 0); field; assumption. }
      rewrite zsum_minus; f_equal.
      * change (zsum 0 (S (S k)) ?f) with (zsum 0 (S k) f + f (0 + Z.of_nat (S k))%Z).
        cbv beta; rewrite (acoef_out p i k (0 + Z.of_nat (S k))) by lia; ring.
      * rewrite (zsum_first 0 (S k)).
        rewrite (acoef_out p i k (0 - 1)) by lia.
        rewrite zsum_shift, Rmult_0_l, Rplus_0_l.
        apply zsum_ext; intros j _.
        replace (j + 1 - 1)%Z with j by lia; replace (i + (j + 1))%Z with (i + j + 1)%Z by lia.
        reflexivity.
Qed.

Lemma Dx_ext_zero k : forall p i u,
  (forall j, (i <= j <= i + Z.of_nat p)%Z -> B j = 0) -> Dx k p i u = 0.
Proof.
  induction k as [|k IH]; intros p i u H; [cbn; apply cox_zero; exact H|].
  destruct p as [|q]; [reflexivity|]; cbn [Dx].
  rewrite !IH by (intros j Hj; apply H; lia); rewrite !sdiv_0_l; ring.
Qed.
End Deriv.

(** Derivatives of order k >= 1 of the functions of one span sum to 0. *)
Lemma Dx_sum_zero U s p k u :
  (forall i j, (i <= j)%Z -> U i <= U j) -> U s < U (s + 1)%Z -> (1 <= k)%nat ->
  zsum (s - Z.of_nat p) (S p) (fun i => Dx (delta s) U k p i u) = 0.
Proof.
  intros Hm Hs Hk.
  assert (G : forall k u, derivable_pt_lim
     (fun u => zsum (s - Z.of_nat p) (S p) (fun i => Dx (delta s) U k p i u)) u
     (zsum (s - Z.of_nat p) (S p) (fun i => Dx (delta s) U (S k) p i u))).
  { intros k' u'; apply (derivable_zsum (s - Z.of_nat p) (S p) (fun i u => Dx (delta s) U k' p i u)).
    intros i; apply Dx_derivable; exact Hm. }
  destruct k as [|k]; [lia|]; clear Hk; revert u.
  induction k as [|k IH]; intros u.
  - eapply uniqueness_limite; [apply (G 0%nat)|].
    apply (derivable_pt_lim_ext (fun _ => 1)); [|apply derivable_pt_lim_const].
    intros t; symmetry; apply (cox_unity U s p Hs); [intros; apply Hm; lia|lia].
  - eapply uniqueness_limite; [apply (G (S k))|].
    apply (derivable_pt_lim_ext (fun _ => 0)); [|apply derivable_pt_lim_const].
    intros t; symmetry; apply IH.
Qed.
