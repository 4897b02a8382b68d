(** Knot insertion (Boehm) for the Cox-de Boor recursion. *)
From Verif Require Import Spec MathCox.
Open Scope R_scope.

Section Boehm.
Variables (U T : Z -> R) (BU BT : Z -> R) (k : Z) (x : R).
Hypothesis Tlow : forall i, (i <= k)%Z -> T i = U i.
Hypothesis Tmid : T (k + 1)%Z = x.
Hypothesis Thigh : forall i, (k + 1 < i)%Z -> T i = U (i - 1)%Z.
Hypothesis Tmono : forall i j, (i <= j)%Z -> T i <= T j.
Hypothesis Blow : forall i, (i < k)%Z -> BU i = BT i.
Hypothesis Bmid : BU k = BT k + BT (k + 1)%Z.
Hypothesis Bhigh : forall i, (k < i)%Z -> BU i = BT (i + 1)%Z.
Hypothesis Bempty : forall i, T (i + 1)%Z = T i -> BT i = 0.

Lemma cox_empty p i u : T (i + Z.of_nat p + 1)%Z = T i -> cox BT T p i u = 0.
Proof.
  intros H; apply cox_zero; intros j Hj; apply Bempty.
  pose proof (Tmono i j ltac:(lia)); pose proof (Tmono j (j + 1) ltac:(lia)).
  pose proof (Tmono (j + 1) (i + Z.of_nat p + 1) ltac:(lia)); lra.
Qed.
Lemma Mx_empty p i u : T (i + Z.of_nat p + 1)%Z = T i -> Mx BT T p i u = 0.
Proof. intros H; unfold Mx; rewrite H; unfold Rminus; rewrite Rplus_opp_r; apply sdiv_0_r. Qed.
Lemma cox_Mx p i u : cox BT T p i u = (T (i + Z.of_nat p + 1)%Z - T i) * Mx BT T p i u.
Proof.
  destruct (Req_EM_T (T (i + Z.of_nat p + 1)%Z - T i) 0) as [E|E].
  - rewrite cox_empty by lra; rewrite E; ring.
  - unfold Mx; rewrite sdiv_nz by exact E; field; exact E.
Qed.

Lemma boehm_low u p : forall i, (i + Z.of_nat p < k)%Z -> cox BU U p i u = cox BT T p i u.
Proof.
  intros i Hi; apply cox_ext; intros j Hj.
  - apply Blow; lia.
  - symmetry; apply Tlow; lia.
Qed.
Lemma boehm_high u : forall p i, (k < i)%Z -> cox BU U p i u = cox BT T p (i + 1) u.
Proof.
  induction p as [|p IH]; intros i Hi; [cbn; apply Bhigh; lia|].
  cbn [cox]; rewrite !IH by lia; rewrite !Thigh by lia.
  repeat (f_equal; try lia).
Qed.

(** The middle range, in the form of one more recursion step taken at [x]. *)
Definition mid p i u : R :=
  (x - T i) * Mx BT T p i u + (T (i + Z.of_nat p + 2)%Z - x) * Mx BT T p (i + 1) u.

Lemma boehm_mid u : forall p i, (k - Z.of_nat p <= i <= k)%Z -> cox BU U p i u = mid p i u.
Proof.
  induction p as [|p IH]; intros i Hi.
  - assert (i = k) as -> by lia; cbn [cox]; rewrite Bmid.
    change (BT k) with (cox BT T 0 k u); change (BT (k + 1)%Z) with (cox BT T 0 (k + 1) u).
    rewrite !cox_Mx; unfold mid; cbn [Z.of_nat].
    replace (k + 0 + 1)%Z with (k + 1)%Z by lia.
    replace (k + 1 + 0 + 1)%Z with (k + 0 + 2)%Z by lia.
    rewrite Tmid; ring.
  - (* normalised functions of the old vector *)
    assert (HM : forall i, (k - Z.of_nat p - 1 <= i <= k + 1)%Z ->
      Mx BU U p i u = sdiv (mid p i u) (T (i + Z.of_nat p + 2)%Z - T i)).
    { clear i Hi; intros i Hi; unfold Mx at 1.
      destruct (Z.eq_dec i (k - Z.of_nat p - 1)) as [E|E].
      - rewrite boehm_low by lia.
        rewrite <- !Tlow by lia; fold (Mx BT T p i u).
        unfold mid; replace (i + Z.of_nat p + 2)%Z with (k + 1)%Z by lia; rewrite Tmid.
        destruct (Req_EM_T (x - T i) 0) as [D|D].
        + rewrite D, sdiv_0_r; apply Mx_empty.
          pose proof (Tmono i (i + Z.of_nat p + 1) ltac:(lia)).
          pose proof (Tmono (i + Z.of_nat p + 1) (k + 1) ltac:(lia)); rewrite Tmid in *; lra.
        + rewrite sdiv_nz by exact D; field; exact D.
      - destruct (Z.eq_dec i (k + 1)) as [E2|E2].
        + rewrite boehm_high by lia; subst i.
          unfold mid.
          replace (U (k + 1 + Z.of_nat p + 1)%Z) with (T (k + 1 + Z.of_nat p + 2)%Z)
            by (rewrite Thigh by lia; f_equal; lia).
          replace (U (k + 1)%Z) with (T (k + 2)%Z) by (rewrite Thigh by lia; f_equal; lia).
          replace (k + 1 + Z.of_nat p + 2)%Z with (k + 1 + 1 + Z.of_nat p + 1)%Z by lia.
          replace (k + 2)%Z with (k + 1 + 1)%Z by lia.
          fold (Mx BT T p (k + 1 + 1) u).
          rewrite Tmid.
          destruct (Req_EM_T (T (k + 1 + 1 + Z.of_nat p + 1)%Z - x) 0) as [D|D].
          * rewrite D, sdiv_0_r; apply Mx_empty.
            pose proof (Tmono (k + 1) (k + 1 + 1) ltac:(lia)).
            pose proof (Tmono (k + 1 + 1) (k + 1 + 1 + Z.of_nat p + 1) ltac:(lia)); rewrite Tmid in *; lra.
          * rewrite sdiv_nz by exact D; field; exact D.
        + rewrite IH by lia; rewrite <- (Tlow i) by lia.
          replace (U (i + Z.of_nat p + 1)%Z) with (T (i + Z.of_nat p + 2)%Z)
            by (rewrite Thigh by lia; f_equal; lia); reflexivity. }
    rewrite cox_S, !HM by lia.
    rewrite <- (Tlow i) by lia.
    replace (U (i + Z.of_nat p + 2)%Z) with (T (i + Z.of_nat p + 3)%Z)
      by (rewrite Thigh by lia; f_equal; lia).
    unfold mid.
    assert (HT : forall i, Mx BT T (S p) i u =
      sdiv ((u - T i) * Mx BT T p i u + (T (i + Z.of_nat p + 2)%Z - u) * Mx BT T p (i + 1) u)
           (T (i + Z.of_nat p + 2)%Z - T i)).
    { intros i'; unfold Mx at 1; rewrite cox_S; f_equal; f_equal; f_equal; lia. }
    rewrite !HT.
    replace (i + 1 + Z.of_nat p + 2)%Z with (i + Z.of_nat p + 3)%Z by lia.
    replace (i + Z.of_nat (S p) + 2)%Z with (i + Z.of_nat p + 3)%Z by lia.
    replace (i + 1 + 1)%Z with (i + 2)%Z by lia.
    set (a := T i); set (b := T (i + 1)%Z); set (c := T (i + Z.of_nat p + 2)%Z);
      set (e := T (i + Z.of_nat p + 3)%Z).
    set (X := Mx BT T p i u); set (Z2 := Mx BT T p (i + 2) u).
    assert (HY : forall P : R -> Prop,
      (c = a \/ e = b -> P 0) -> (c <> a -> e <> b -> P (Mx BT T p (i + 1) u)) ->
      P (Mx BT T p (i + 1) u)).
    { intros P H1 H2.
      pose proof (Tmono i (i + 1) ltac:(lia)) as M1; pose proof (Tmono (i + 1) (i + Z.of_nat p + 2) ltac:(lia)) as M2.
      pose proof (Tmono (i + Z.of_nat p + 2) (i + Z.of_nat p + 3) ltac:(lia)) as M3.
      fold a b c e in M1, M2, M3.
      destruct (Req_EM_T c a) as [E|E]; [|destruct (Req_EM_T e b) as [E2|E2]].
      - rewrite Mx_empty; [apply H1; left; exact E|].
        replace (i + 1 + Z.of_nat p + 1)%Z with (i + Z.of_nat p + 2)%Z by lia; fold b c; lra.
      - rewrite Mx_empty; [apply H1; right; exact E2|].
        replace (i + 1 + Z.of_nat p + 1)%Z with (i + Z.of_nat p + 2)%Z by lia; fold b c; lra.
      - apply H2; assumption. }
    assert (HX : c = a -> X = 0).
    { intros E; apply Mx_empty; fold a.
      pose proof (Tmono i (i + Z.of_nat p + 1) ltac:(lia)) as M1.
      pose proof (Tmono (i + Z.of_nat p + 1) (i + Z.of_nat p + 2) ltac:(lia)) as M2.
      fold a in M1; fold c in M2; lra. }
    assert (HZ : e = b -> Z2 = 0).
    { intros E; apply Mx_empty.
      replace (i + 2 + Z.of_nat p + 1)%Z with (i + Z.of_nat p + 3)%Z by lia; fold e.
      pose proof (Tmono (i + 1) (i + 2) ltac:(lia)) as M1.
      pose proof (Tmono (i + 2) (i + Z.of_nat p + 3) ltac:(lia)) as M2.
      fold b in M1; fold e in M2; lra. }
    apply HY; clear HY.
    + intros _.
      unfold sdiv; destruct (Req_EM_T (c - a) 0); destruct (Req_EM_T (e - b) 0); field; repeat split; assumption.
    + intros E1 E2.
      rewrite !sdiv_nz by lra; field; lra.
Qed.

(** Weights of the classical statement. *)
Definition alpha (p : nat) (i : Z) : R :=
  if (i <=? k - Z.of_nat p)%Z then 1
  else if (i <=? k)%Z then sdiv (x - U i) (U (i + Z.of_nat p)%Z - U i)
  else 0.

Hypothesis Hx : U k <= x < U (k + 1)%Z.

Lemma boehm p i u :
  cox BU U p i u = alpha p i * cox BT T p i u + (1 - alpha p (i + 1)) * cox BT T p (i + 1) u.
Proof.
  unfold alpha.
  destruct (Z.leb_spec i (k - Z.of_nat p)) as [H1|H1];
    destruct (Z.leb_spec (i + 1) (k - Z.of_nat p)) as [H2|H2]; try lia.
  - rewrite boehm_low by lia; ring.
  - assert (Ei : i = (k - Z.of_nat p)%Z) by lia.
    destruct (Z.leb_spec (i + 1) k) as [H3|H3].
    + rewrite boehm_mid by lia; unfold mid.
      rewrite !cox_Mx.
      replace (i + Z.of_nat p + 1)%Z with (k + 1)%Z by lia; rewrite Tmid.
      replace (i + 1 + Z.of_nat p + 1)%Z with (i + Z.of_nat p + 2)%Z by lia.
      rewrite <- (Tlow (i + 1)) by lia.
      replace (U (i + 1 + Z.of_nat p)%Z) with (T (i + Z.of_nat p + 2)%Z)
        by (rewrite Thigh by lia; f_equal; lia).
      set (w := T (i + Z.of_nat p + 2)%Z).
      assert (w - T (i + 1)%Z > 0).
      { unfold w; rewrite Thigh by lia; replace (i + Z.of_nat p + 2 - 1)%Z with (k + 1)%Z by lia.
        pose proof (Tmono (i + 1) k ltac:(lia)) as M; rewrite (Tlow k) in M by lia; lra. }
      rewrite sdiv_nz by lra; field; lra.
    + assert (Z.of_nat p = 0)%Z by lia; assert (p = O) as -> by lia.
      assert (i = k) as -> by lia; cbn [cox]; rewrite Bmid; ring.
  - destruct (Z.leb_spec i k) as [H3|H3]; destruct (Z.leb_spec (i + 1) k) as [H4|H4]; try lia.
    + rewrite boehm_mid by lia; unfold mid; rewrite !cox_Mx.
      rewrite <- (Tlow (i + 1)), <- (Tlow i) by lia.
      replace (i + 1 + Z.of_nat p + 1)%Z with (i + Z.of_nat p + 2)%Z by lia.
      replace (U (i + 1 + Z.of_nat p)%Z) with (T (i + Z.of_nat p + 2)%Z)
        by (rewrite Thigh by lia; f_equal; lia).
      replace (U (i + Z.of_nat p)%Z) with (T (i + Z.of_nat p + 1)%Z)
        by (rewrite Thigh by lia; f_equal; lia).
      assert (x < T (i + Z.of_nat p + 1)%Z).
      { pose proof (Tmono (k + 2) (i + Z.of_nat p + 1) ltac:(lia)) as M.
        rewrite (Thigh (k + 2)) in M by lia; replace (k + 2 - 1)%Z with (k + 1)%Z in M by lia; lra. }
      assert (T (i + 1)%Z <= x).
      { pose proof (Tmono (i + 1) k ltac:(lia)) as M; rewrite (Tlow k) in M by lia; lra. }
      pose proof (Tmono i (i + 1) ltac:(lia)) as M1.
      pose proof (Tmono (i + Z.of_nat p + 1) (i + Z.of_nat p + 2) ltac:(lia)) as M2.
      rewrite !sdiv_nz by lra; field; lra.
    + assert (i = k) as -> by lia.
      rewrite boehm_mid by lia; unfold mid; rewrite !cox_Mx.
      rewrite Tmid, <- (Tlow k) by lia.
      replace (k + 1 + Z.of_nat p + 1)%Z with (k + Z.of_nat p + 2)%Z by lia.
      replace (U (k + Z.of_nat p)%Z) with (T (k + Z.of_nat p + 1)%Z)
        by (rewrite Thigh by lia; f_equal; lia).
      assert (x < T (k + Z.of_nat p + 1)%Z).
      { pose proof (Tmono (k + 2) (k + Z.of_nat p + 1) ltac:(lia)) as M.
        rewrite (Thigh (k + 2)) in M by lia; replace (k + 2 - 1)%Z with (k + 1)%Z in M by lia; lra. }
      assert (T k <= x) by (rewrite Tlow by lia; lra).
      rewrite sdiv_nz by lra; field; lra.
    + rewrite boehm_high by lia; ring.
Qed.

(** Control values after one insertion. *)
Definition boehm_ctrl (p : nat) (P : Z -> R) (i : Z) : R :=
  alpha p i * P i + (1 - alpha p i) * P (i - 1)%Z.

Lemma boehm_sum p n P u :
  (Z.of_nat p <= k)%Z -> (k < Z.of_nat n)%Z ->
  zsum 0 n (fun i => cox BU U p i u * P i)
  = zsum 0 (S n) (fun i => cox BT T p i u * boehm_ctrl p P i).
Proof.
  intros Hk Hn.
  rewrite (zsum_ext 0 n _ (fun i => alpha p i * cox BT T p i u * P i
     + (1 - alpha p (i + 1)) * cox BT T p (i + 1) u * P i))
    by (intros i _; rewrite boehm; ring).
  rewrite zsum_plus.
  rewrite (zsum_ext 0 (S n) _ (fun i => alpha p i * cox BT T p i u * P i
     + (1 - alpha p i) * cox BT T p i u * P (i - 1)%Z))
    by (intros i _; unfold boehm_ctrl; ring).
  rewrite zsum_plus; f_equal.
  - cbn [zsum]; unfold alpha at 3.
    destruct (Z.leb_spec (0 + Z.of_nat n) (k - Z.of_nat p)); [lia|].
    destruct (Z.leb_spec (0 + Z.of_nat n) k); [lia|]; ring.
  - rewrite zsum_first; unfold alpha at 2.
    destruct (Z.leb_spec 0 (k - Z.of_nat p)); [|lia].
    rewrite zsum_shift.
    rewrite (zsum_ext 0 n (fun i => _ * P (i + 1 - 1)%Z)
       (fun i => (1 - alpha p (i + 1)) * cox BT T p (i + 1) u * P i)); [ring|].
    intros i _; do 2 f_equal; lia.
Qed.
End Boehm.
