(** Mathematics of the Cox-de Boor recursion over Z-indexed knots. *)
From Verif Require Import Spec.
Open Scope R_scope.

Lemma zn_S q : Z.of_nat (S q) = (Z.of_nat q + 1)%Z.
Proof. lia. Qed.

(** ** Sums *)
Lemma zsum_ext a n f g :
  (forall i, (a <= i < a + Z.of_nat n)%Z -> f i = g i) -> zsum a n f = zsum a n g.
Proof.
  induction n as [|n IH]; intros H; [reflexivity|].
  cbn [zsum]; rewrite IH, H; [reflexivity|lia|intros i Hi; apply H; lia].
Qed.
Lemma zsum_0 a n f : (forall i, (a <= i < a + Z.of_nat n)%Z -> f i = 0) -> zsum a n f = 0.
Proof.
  induction n as [|n IH]; intros H; [reflexivity|].
  cbn [zsum]; rewrite IH, H; [ring|lia|intros i Hi; apply H; lia].
Qed.
Lemma zsum_plus a n f g : zsum a n (fun i => f i + g i) = zsum a n f + zsum a n g.
Proof. induction n as [|n IH]; cbn [zsum]; [ring|rewrite IH; ring]. Qed.
Lemma zsum_minus a n f g : zsum a n (fun i => f i - g i) = zsum a n f - zsum a n g.
Proof. induction n as [|n IH]; cbn [zsum]; [ring|rewrite IH; ring]. Qed.
Lemma zsum_scal a n c f : zsum a n (fun i => c * f i) = c * zsum a n f.
Proof. induction n as [|n IH]; cbn [zsum]; [ring|rewrite IH; ring]. Qed.
Lemma zsum_scal_r a n c f : zsum a n (fun i => f i * c) = zsum a n f * c.
Proof. induction n as [|n IH]; cbn [zsum]; [ring|rewrite IH; ring]. Qed.
Lemma zsum_first a n f : zsum a (S n) f = f a + zsum (a + 1) n f.
Proof.
  induction n as [|n IH].
  - cbn [zsum]; replace (a + Z.of_nat 0)%Z with a by lia; ring.
  - cbn [zsum] in *; rewrite IH; replace (a + 1 + Z.of_nat n)%Z with (a + Z.of_nat (S n))%Z by lia; ring.
Qed.
Lemma zsum_shift a d n f : zsum (a + d) n f = zsum a n (fun i => f (i + d)%Z).
Proof.
  induction n as [|n IH]; [reflexivity|].
  cbn [zsum]; rewrite IH; do 2 f_equal; lia.
Qed.
Lemma zsum_app a n m f : zsum a (n + m) f = zsum a n f + zsum (a + Z.of_nat n) m f.
Proof.
  induction m as [|m IH].
  - rewrite Nat.add_0_r; cbn [zsum]; ring.
  - rewrite Nat.add_succ_r; cbn [zsum]; rewrite IH, Rplus_assoc; do 3 f_equal; lia.
Qed.
(** Only the window [b, b+m) contributes. *)
Lemma zsum_window a n b m f :
  (a <= b)%Z -> (b + Z.of_nat m <= a + Z.of_nat n)%Z ->
  (forall i, (a <= i < a + Z.of_nat n)%Z -> (i < b \/ b + Z.of_nat m <= i)%Z -> f i = 0) ->
  zsum a n f = zsum b m f.
Proof.
  intros H1 H2 H0.
  replace n with (Z.to_nat (b - a) + (m + (n - m - Z.to_nat (b - a))))%nat by lia.
  rewrite !zsum_app.
  rewrite (zsum_0 a) by (intros i Hi; apply H0; lia).
  rewrite (zsum_0 (a + Z.of_nat (Z.to_nat (b - a)) + Z.of_nat m)) by (intros i Hi; apply H0; lia).
  replace (a + Z.of_nat (Z.to_nat (b - a)))%Z with b by lia; ring.
Qed.
Lemma zsum_nonneg a n f :
  (forall i, (a <= i < a + Z.of_nat n)%Z -> 0 <= f i) -> 0 <= zsum a n f.
Proof.
  induction n as [|n IH]; intros H; [cbn; lra|].
  cbn [zsum]; assert (0 <= zsum a n f) by (apply IH; intros; apply H; lia).
  assert (0 <= f (a + Z.of_nat n)%Z) by (apply H; lia); lra.
Qed.
Lemma zsum_le a n f g :
  (forall i, (a <= i < a + Z.of_nat n)%Z -> f i <= g i) -> zsum a n f <= zsum a n g.
Proof.
  induction n as [|n IH]; intros H; [cbn; lra|].
  cbn [zsum]; assert (zsum a n f <= zsum a n g) by (apply IH; intros; apply H; lia).
  assert (f (a + Z.of_nat n)%Z <= g (a + Z.of_nat n)%Z) by (apply H; lia); lra.
Qed.
Lemma zsum_single a n b f :
  (a <= b < a + Z.of_nat n)%Z -> (forall i, (a <= i < a + Z.of_nat n)%Z -> i <> b -> f i = 0) ->
  zsum a n f = f b.
Proof.
  intros Hb H; rewrite (zsum_window a n b 1) by (try lia; intros i Hi Hi'; apply H; lia).
  cbn [zsum]; replace (b + Z.of_nat 0)%Z with b by lia; ring.
Qed.
Lemma zsum_swap a n b m (f : Z -> Z -> R) :
  zsum a n (fun i => zsum b m (f i)) = zsum b m (fun j => zsum a n (fun i => f i j)).
Proof.
  induction n as [|n IH]; cbn [zsum].
  - symmetry; apply zsum_0; reflexivity.
  - rewrite IH, <- zsum_plus; reflexivity.
Qed.

(** ** Safe division *)
Lemma sdiv_0_r a : sdiv a 0 = 0.
Proof. unfold sdiv; destruct (Req_EM_T 0 0); [reflexivity|contradiction]. Qed.
Lemma sdiv_nz a b : b <> 0 -> sdiv a b = a / b.
Proof. intros H; unfold sdiv; destruct (Req_EM_T b 0); [contradiction|reflexivity]. Qed.
Lemma sdiv_0_l b : sdiv 0 b = 0.
Proof. unfold sdiv; destruct (Req_EM_T b 0); [reflexivity|field; assumption]. Qed.
Lemma sdiv_mul a b c : sdiv (a * c) b = sdiv a b * c.
Proof. unfold sdiv; destruct (Req_EM_T b 0); [ring|field; assumption]. Qed.

(** ** Normalised functions: M_{i,q} = N_{i,q} / (U_{i+q+1} - U_i). *)
Definition Mx (B : Z -> R) (U : Z -> R) (q : nat) (i : Z) (u : R) : R :=
  sdiv (cox B U q i u) (U (i + Z.of_nat q + 1)%Z - U i).

Lemma cox_S B U q i u :
  cox B U (S q) i u =
    (u - U i) * Mx B U q i u + (U (i + Z.of_nat q + 2)%Z - u) * Mx B U q (i + 1) u.
Proof.
  cbn [cox]; unfold Mx.
  replace (i + 1 + Z.of_nat q + 1)%Z with (i + Z.of_nat q + 2)%Z by lia.
  rewrite <- !sdiv_mul, (Rmult_comm (u - U i)), (Rmult_comm (_ - u)), !sdiv_mul; ring.
Qed.

Lemma cox_ext B B' U U' p i u :
  (forall j, (i <= j <= i + Z.of_nat p)%Z -> B j = B' j) ->
  (forall j, (i <= j <= i + Z.of_nat p + 1)%Z -> U j = U' j) ->
  cox B U p i u = cox B' U' p i u.
Proof.
  revert i; induction p as [|p IH]; intros i HB HU.
  - cbn; apply HB; lia.
  - cbn [cox]; rewrite (IH i), (IH (i + 1)%Z); try (intros j Hj; apply HB; lia);
      try (intros j Hj; apply HU; lia).
    rewrite !HU by lia; reflexivity.
Qed.

(** ** Support *)
Lemma cox_zero B U p i u :
  (forall j, (i <= j <= i + Z.of_nat p)%Z -> B j = 0) -> cox B U p i u = 0.
Proof.
  revert i; induction p as [|p IH]; intros i HB.
  - cbn; apply HB; lia.
  - cbn [cox]; rewrite (IH i), (IH (i + 1)%Z) by (intros j Hj; apply HB; lia); ring.
Qed.

Definition delta (s i : Z) : R := if (i =? s)%Z then 1 else 0.
Lemma delta_same s : delta s s = 1.
Proof. unfold delta; rewrite Z.eqb_refl; reflexivity. Qed.
Lemma delta_other s i : i <> s -> delta s i = 0.
Proof. intros H; unfold delta; destruct (Z.eqb_spec i s); [contradiction|reflexivity]. Qed.

Lemma cox_support s U p i u :
  (i < s - Z.of_nat p \/ s < i)%Z -> cox (delta s) U p i u = 0.
Proof. intros H; apply cox_zero; intros j Hj; apply delta_other; lia. Qed.

(** ** Partition of unity on a non-empty span *)
Section Unity.
Variables (U : Z -> R) (s : Z) (p : nat).
Hypothesis Hs : U s < U (s + 1)%Z.
Hypothesis Hmono : forall i j, (s - Z.of_nat p + 1 <= i <= j)%Z -> (j <= s + Z.of_nat p)%Z -> U i <= U j.

Lemma span_width q i : (q < p)%nat -> (s - Z.of_nat q <= i <= s)%Z ->
  0 < U (i + Z.of_nat q + 1)%Z - U i.
Proof.
  intros Hq Hi.
  assert (U i <= U s) by (apply Hmono; lia).
  assert (U (s + 1)%Z <= U (i + Z.of_nat q + 1)%Z) by (apply Hmono; lia).
  lra.
Qed.

Lemma Mx_span q i u : (q < p)%nat -> (s - Z.of_nat q <= i <= s)%Z ->
  Mx (delta s) U q i u * (U (i + Z.of_nat q + 1)%Z - U i) = cox (delta s) U q i u.
Proof.
  intros Hq Hi; unfold Mx; pose proof (span_width q i Hq Hi).
  rewrite sdiv_nz by lra; field; lra.
Qed.

Lemma cox_unity u : forall q, (q <= p)%nat ->
  zsum (s - Z.of_nat q) (S q) (fun i => cox (delta s) U q i u) = 1.
Proof.
  induction q as [|q IH]; intros Hq.
  - cbn; rewrite Z.sub_0_r, Z.add_0_r, delta_same; ring.
  - specialize (IH ltac:(lia)).
    rewrite (zsum_ext _ _ _ (fun i => (u - U i) * Mx (delta s) U q i u +
      (U (i + Z.of_nat q + 2)%Z - u) * Mx (delta s) U q (i + 1) u)) by (intros; apply cox_S).
    rewrite zsum_plus.
    (* first sum: i = s-q-1 vanishes *)
    rewrite zsum_first.
    assert (E0 : Mx (delta s) U q (s - Z.of_nat (S q)) u = 0).
    { unfold Mx; rewrite cox_support by lia; apply sdiv_0_l. }
    rewrite E0, Rmult_0_r, Rplus_0_l.
    (* second sum: i = s vanishes *)
    assert (E2 : zsum (s - Z.of_nat (S q)) (S (S q))
        (fun i => (U (i + Z.of_nat q + 2)%Z - u) * Mx (delta s) U q (i + 1) u)
      = zsum (s - Z.of_nat q) (S q)
        (fun i => (U (i + Z.of_nat q + 1)%Z - u) * Mx (delta s) U q i u)).
    { replace (s - Z.of_nat q)%Z with (s - Z.of_nat (S q) + 1)%Z by lia.
      rewrite zsum_shift; cbn [zsum].
      match goal with |- _ + _ + ?x = _ => assert (Ex : x = 0) end.
      { unfold Mx; rewrite cox_support by lia; rewrite sdiv_0_l; ring. }
      rewrite Ex, Rplus_0_r; f_equal.
      - apply zsum_ext; intros i Hi; do 2 f_equal; f_equal; lia.
      - do 2 f_equal; f_equal; lia. }
    rewrite E2.
    replace (s - Z.of_nat (S q) + 1)%Z with (s - Z.of_nat q)%Z by lia.
    rewrite <- zsum_plus, <- IH.
    apply zsum_ext; intros i Hi.
    rewrite <- (Mx_span q i u) by lia; ring.
Qed.

Lemma cox_nonneg u : U s <= u <= U (s + 1)%Z ->
  forall q i, (q <= p)%nat -> 0 <= cox (delta s) U q i u.
Proof.
  intros Hu; induction q as [|q IH]; intros i Hq.
  - cbn; unfold delta; destruct (Z.eqb_spec i s); lra.
  - rewrite cox_S.
    assert (HM : forall i, (s - Z.of_nat q <= i <= s)%Z -> 0 <= Mx (delta s) U q i u).
    { intros i' Hi'; pose proof (span_width q i' ltac:(lia) Hi').
      unfold Mx; rewrite sdiv_nz by lra.
      apply Rmult_le_pos; [apply IH; lia|left; apply Rinv_0_lt_compat; lra]. }
    assert (HM0 : forall i, (i < s - Z.of_nat q \/ s < i)%Z -> Mx (delta s) U q i u = 0).
    { intros i' Hi'; unfold Mx; rewrite cox_support by lia; apply sdiv_0_l. }
    assert (0 <= (u - U i) * Mx (delta s) U q i u).
    { destruct (Z_lt_dec i (s - Z.of_nat q)); [rewrite HM0 by lia; lra|].
      destruct (Z_lt_dec s i); [rewrite HM0 by lia; lra|].
      apply Rmult_le_pos; [|apply HM; lia].
      assert (U i <= U s) by (apply Hmono; lia); lra. }
    assert (0 <= (U (i + Z.of_nat q + 2)%Z - u) * Mx (delta s) U q (i + 1) u).
    { destruct (Z_lt_dec (i + 1) (s - Z.of_nat q)); [rewrite HM0 by lia; lra|].
      destruct (Z_lt_dec s (i + 1)); [rewrite HM0 by lia; lra|].
      apply Rmult_le_pos; [|apply HM; lia].
      assert (U (s + 1)%Z <= U (i + Z.of_nat q + 2)%Z) by (apply Hmono; lia); lra. }
    lra.
Qed.

Lemma cox_le_1 u : U s <= u <= U (s + 1)%Z -> forall i, cox (delta s) U p i u <= 1.
Proof.
  intros Hu i.
  destruct (Z_lt_dec i (s - Z.of_nat p)); [rewrite cox_support by lia; lra|].
  destruct (Z_lt_dec s i); [rewrite cox_support by lia; lra|].
  rewrite <- (cox_unity u p) by lia.
  pose proof (zsum_single (s - Z.of_nat p) (S p) i
               (fun j => if (j =? i)%Z then cox (delta s) U p i u else 0)) as E.
  cbv beta in E; rewrite Z.eqb_refl in E; rewrite <- E; clear E.
  - apply zsum_le; intros j Hj; destruct (Z.eqb_spec j i) as [->|]; [lra|].
    apply cox_nonneg; [exact Hu|lia].
  - lia.
  - intros j Hj Hne; destruct (Z.eqb_spec j i); [contradiction|reflexivity].
Qed.
End Unity.

(** ** Values where the parameter is a knot *)

(** At t = U_{s+1} = ... = U_{s+m}, the piece of span [s] of degree <= m is delta s. *)
Lemma cox_left_end U s m t :
  U s < t -> (forall j, (s + 1 <= j <= s + Z.of_nat m)%Z -> U j = t) ->
  forall q i, (q <= m)%nat -> cox (delta s) U q i t = delta s i.
Proof.
  intros Hs Ht; induction q as [|q IH]; intros i Hq; [reflexivity|].
  cbn [cox]; rewrite !IH by lia; unfold delta.
  destruct (Z.eqb_spec i s) as [->|Hi].
  - destruct (Z.eqb_spec (s + 1) s); [lia|].
    rewrite (Ht (s + Z.of_nat q + 1)%Z) by lia.
    rewrite sdiv_nz by lra; field; lra.
  - destruct (Z.eqb_spec (i + 1) s) as [<-|]; [|ring].
    rewrite (Ht (i + Z.of_nat q + 2)%Z) by lia.
    unfold Rminus; rewrite Rplus_opp_r, sdiv_0_l; ring.
Qed.
(** At t = U_{s-m+1} = ... = U_s the piece of span [s] of degree q <= m is delta (s-q). *)
Lemma cox_right_start U s m t :
  t < U (s + 1)%Z -> (forall j, (s - Z.of_nat m + 1 <= j <= s)%Z -> U j = t) ->
  forall q i, (q <= m)%nat -> cox (delta s) U q i t = delta (s - Z.of_nat q) i.
Proof.
  intros Hs Ht; induction q as [|q IH]; intros i Hq.
  - cbn [cox]; f_equal; lia.
  - cbn [cox]; rewrite !IH by lia; unfold delta.
    destruct (Z.eqb_spec i (s - Z.of_nat (S q))) as [E|Hi].
    + destruct (Z.eqb_spec i (s - Z.of_nat q)); [lia|].
      destruct (Z.eqb_spec (i + 1) (s - Z.of_nat q)); [|lia].
      rewrite (Ht (i + 1)%Z) by lia.
      replace (i + Z.of_nat q + 2)%Z with (s + 1)%Z by lia.
      rewrite (sdiv_nz (U (s + 1)%Z - t)) by lra; field; lra.
    + destruct (Z.eqb_spec (i + 1) (s - Z.of_nat q)); [lia|].
      destruct (Z.eqb_spec i (s - Z.of_nat q)) as [->|]; [|ring].
      rewrite (Ht (s - Z.of_nat q)%Z) by lia.
      unfold Rminus; rewrite Rplus_opp_r, sdiv_0_l; ring.
Qed.
