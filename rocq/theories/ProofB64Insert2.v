(** Evaluating a curve on binary64 numbers before and after a knot insertion. *)
From Coq Require Import Reals Lra Lia ZArith List Floats.
From Flocq Require Import Core.Core.
From Verif Require Import Py PyLemmas Num ModelKnots ModelCurve Spec SpecB64 MathKnots ProofNum
  ProofKnots ProofInsert2 ProofB64 ProofB64Basis ProofB64Curve ProofB64Insert.
Import ListNotations.
Open Scope R_scope.

Lemma near64_within M e y q : near64 e y q -> Forall (fun z => - M <= z <= M) q -> within (- (M + e)) (M + e) y.
Proof.
  intros H; induction H as [|a b y q (F & B) H IH]; intros Hq; [constructor|].
  inversion Hq as [|? ? Hb Hq']; subst; constructor; [|apply IH; exact Hq'].
  split; [exact F|]; apply Rabs_le_inv in B; lra.
Qed.

Lemma Forall2_len {A B} (R : A -> B -> Prop) l m : Forall2 R l m -> length l = length m.
Proof. induction 1; cbn; congruence. Qed.
Lemma In_part {A} n (l : list A) z : In z (firstn n l) \/ In z (skipn n l) -> In z l.
Proof. intros H; rewrite <- (firstn_skipn n l); apply in_or_app; exact H. Qed.
Lemma insertion_points_b64 p (U : list PrimFloat.float) (P : list (list PrimFloat.float)) (x y : Binary64) M d :
  within 0 1 U -> clamped (Z.of_nat p) (len P) (values U) -> (1 <= p)%nat -> INR p <= 2 ^ 40 ->
  kn (values U) (Z.of_nat p) = 0 -> kn (values U) (len P) = 1 ->
  (forall i, (Z.of_nat p <= i < len P)%Z -> / 2 ^ 1000 <= kn (values U) (i + 1) - kn (values U) i) ->
  Forall (fun row => length row = 3%nat /\ within (- M) M row) P -> 0 <= M <= 2 ^ 899 ->
  finite64 x -> 0 <= value x <= 1 ->
  (forall z, In z (values U) -> ~ close (101/10000000) (101/10000000000) (value x) z) ->
  finite64 y -> 0 <= value y <= 1 ->
  (1 - value y <= 102 / 100000000 -> kn (values U) (len P - 1) <= value y /\ value x <= value y) ->
  exists (T : list PrimFloat.float) (Q : list (list PrimFloat.float)) (a b : list PrimFloat.float), curve_knot_insertion (K := Binary64) (Z.of_nat p) U P x 1 = Ok (T, Q) /\
    single_point (mkCurve (K := Binary64) (Some (Z.of_nat p)) (Some P) (Some U) d) y = Ok a /\
    single_point (mkCurve (K := Binary64) (Some (Z.of_nat p)) (Some Q) (Some T) d) y = Ok b /\
    near64 (27 * INR (S p) * (ulp64 * M + tiny64)) b (values a).
Proof.
  intros HW HC Hp1 Hp H0 H1 Hgap HP HM Fx Hx Hc Fy Hy Hend.
  assert (P1 : 1 <= 2 ^ 1000) by (apply pow_R1_Rle; lra).
  assert (P9 : 2 * 2 ^ 899 = 2 ^ 900) by (change (2 ^ 900) with (2 ^ (1 + 899)); rewrite pow_add, pow_1; reflexivity).
  assert (P899 : 1 <= 2 ^ 899) by (apply pow_R1_Rle; lra).
  assert (G0 : 0 < / 2 ^ 1000 <= / 10 ^ 9).
  { split; [apply Rinv_0_lt_compat; lra|]; apply Rinv_le_contravar; [cbn; lra|].
    apply Rle_trans with (2 ^ 30); [cbn; lra|apply Rle_pow; [lra|lia]]. }
  assert (HW' : within (- 2 ^ 1000) (2 ^ 1000) U) by (eapply Forall_impl; [|exact HW]; intros z (F & B); split; [exact F|lra]).
  assert (Hp40 : (Z.of_nat p <= 2 ^ 40)%Z).
  { apply le_IZR; rewrite <- INR_IZR_INZ; replace (IZR (2 ^ 40)) with (2 ^ 40) by (cbn; lra); exact Hp. }
  pose proof HC as ((Hp0 & Hn & HL & HU) & C0 & C1 & _).
  destruct (insertion_new_b64 (Z.of_nat p) 1 U P x M HW' HC Hp40 HP ltac:(lra) Fx ltac:(lra) Hc ltac:(lia))
    as (k & Q & q & Hk & Hkx & ER & Lq & NQ & Wq & _ & SD).
  set (T := firstn (Z.to_nat (k + 1)) U ++ repeat x (Z.to_nat 1) ++ skipn (Z.to_nat (k + 1)) U) in *.
  assert (ET : values T = Tj (values U) (length P) p k (value x) 1).
  { unfold T; rewrite values_insert, Tj_list by (try exact HL; exact Hk); reflexivity. }
  set (e := IZR 1 * (12 * ulp64 * M + 4 * tiny64)) in *.
  pose proof ulp64_small as Hu; pose proof eta64_pos as Ht; rewrite <- tiny_eta in Ht.
  assert (uM : 0 <= ulp64 * M) by (apply Rmult_le_pos; lra).
  assert (LQ : len Q = (len P + 1)%Z) by (rewrite <- Lq; unfold len; f_equal; exact (Forall2_len _ _ _ NQ)).
  assert (KT : forall i, kn (values T) i = rknot (values U) k (value x) 1 i) by (intros i; rewrite ET; apply (kn_Tj (values U) (length P) p k (value x)); [exact HL|exact Hk]).
  assert (HUT : nondecreasing (values T)) by (rewrite ET; apply Tj_nondecreasing; try assumption; lra).
  assert (G : / 2 ^ 1000 <= value x - kn (values U) k /\ / 2 ^ 1000 <= kn (values U) (k + 1) - value x).
  { assert (A : forall i, (0 <= i < len (values U))%Z -> / 10 ^ 9 <= Rabs (value x - kn (values U) i)).
    { intros i Hi; apply Rnot_lt_le; intros L; apply (Hc _ (kn_In _ i Hi)); unfold close.
      pose proof (Rabs_pos (kn (values U) i)); assert (/ 10 ^ 9 <= 101 / 10000000000) by (cbn; lra); lra. }
    pose proof (A k ltac:(lia)) as A1; pose proof (A (k + 1)%Z ltac:(lia)) as A2.
    rewrite Rabs_right in A1 by lra; rewrite Rabs_minus_sym, Rabs_right in A2 by lra; lra. }
  assert (HWT : within 0 1 T).
  { unfold T, within; rewrite !Forall_app; split; [|split].
    - apply Forall_forall; intros z Hz; unfold within in HW; rewrite Forall_forall in HW; apply HW, (In_part (Z.to_nat (k + 1)) U z (or_introl Hz)).
    - apply Forall_cons; [split; [exact Fx|exact Hx]|apply Forall_nil].
    - apply Forall_forall; intros z Hz; unfold within in HW; rewrite Forall_forall in HW; apply HW, (In_part (Z.to_nat (k + 1)) U z (or_intror Hz)). }
  assert (EP : forall i, (i <= k)%Z -> kn (values T) i = kn (values U) i).
  { intros i Hi; rewrite KT; unfold rknot; destruct (Z.leb_spec i k); [reflexivity|lia]. }
  assert (EM : kn (values T) (k + 1) = value x).
  { rewrite KT; unfold rknot; destruct (Z.leb_spec (k + 1) k); [lia|]; destruct (Z.leb_spec (k + 1) (k + Z.of_nat 1)); [reflexivity|lia]. }
  assert (EH : forall i, (k + 1 < i)%Z -> kn (values T) i = kn (values U) (i - 1)).
  { intros i Hi; rewrite KT; unfold rknot; destruct (Z.leb_spec i k); [lia|]; destruct (Z.leb_spec i (k + Z.of_nat 1)); [lia|reflexivity]. }
  assert (HCT : clamped (Z.of_nat p) (len Q) (values T)).
  { rewrite LQ; split; [split; [lia|]; split; [lia|]; split; [rewrite ET, len_Tj; unfold len; lia|exact HUT]|].
    rewrite !EP, !EH by lia; replace (len P + 1 - 1)%Z with (len P) by lia.
    replace (len P + 1 + Z.of_nat p - 1)%Z with (len P + Z.of_nat p)%Z by lia; lra. }
  destruct (single_point_b64 p U P d y M HW HC Hp1 Hp H0 H1 Hgap HP ltac:(lra) Fy Hy (fun H => proj1 (Hend H))) as (a & Ea & Na).
  destruct (single_point_b64 p T Q d y (M + e)) as (b & Eb & Nb); try assumption.
  - rewrite EP by lia; exact H0.
  - rewrite LQ, EH by lia; replace (len P + 1 - 1)%Z with (len P) by lia; exact H1.
  - rewrite LQ; intros i Hi.
    destruct (Z_lt_le_dec i k); [rewrite !EP by lia; apply Hgap; lia|].
    destruct (Z.eq_dec i k) as [->|]; [rewrite EM, EP by lia; lra|].
    destruct (Z.eq_dec i (k + 1)) as [->|]; [rewrite EM, EH by lia; replace (k + 1 + 1 - 1)%Z with (k + 1)%Z by lia; lra|].
    rewrite !EH by lia; replace (i + 1 - 1)%Z with (i - 1 + 1)%Z by lia; apply Hgap; lia.
  - clear - NQ Wq; revert Wq; induction NQ as [|r1 r2 Q q Hr NQ IH]; intros Wq; [constructor|].
    inversion Wq as [|? ? (L & B) Wq']; subst; constructor; [|apply IH; exact Wq'].
    split; [rewrite <- L; exact (Forall2_len _ _ _ Hr)|apply near64_within with r2; assumption].
  - assert (e <= 2 ^ 899) by (unfold e; assert (ulp64 * M <= / 1000 * 2 ^ 899) by (apply Rmult_le_compat; lra); assert (tiny64 <= / 1000) by (pose proof eta_ulp as B; rewrite <- tiny_eta in B; assert (1 <= 2 ^ 100) by (apply pow_R1_Rle; lra); nra); lra).
    unfold e in *; lra.
  - intros He; rewrite LQ; destruct (Hend He) as (B1 & B2).
    destruct (Z.eq_dec k (len P - 1)) as [->|]; [replace (len P + 1 - 1)%Z with (len P - 1 + 1)%Z by lia; rewrite EM; exact B2|].
    rewrite EH by lia; replace (len P + 1 - 1 - 1)%Z with (len P - 1)%Z by lia; exact B1.
  - exists T, Q, a, b; split; [exact ER|]; split; [exact Ea|]; split; [exact Eb|].
    assert (ue : ulp64 * e <= / 50 * (ulp64 * M) + / 100 * tiny64).
    { unfold e; assert (ulp64 * (ulp64 * M) <= / 1000 * (ulp64 * M)) by (apply Rmult_le_compat_r; lra).
      assert (ulp64 * tiny64 <= / 1000 * tiny64) by (apply Rmult_le_compat_r; lra); lra. }
    assert (D : forall c, (c < 3)%nat -> Rabs (curve_sum (values T) p (coords c (map values Q)) (value y) -
       curve_sum (values U) p (coords c (map values P)) (value y)) <= e).
    { intros c Hc'; pose proof (SD c (value y) Hc') as B; rewrite Nat2Z.id in B; exact B. }
    assert (B : e + 10 * INR (S p) * (ulp64 * (M + e) + tiny64) + 10 * INR (S p) * (ulp64 * M + tiny64) <= 27 * INR (S p) * (ulp64 * M + tiny64)).
    { assert (I2 : 2 <= INR (S p)) by (rewrite S_INR; apply le_INR in Hp1; cbn in Hp1; lra).
      assert (J1 : 2 * (ulp64 * M) <= INR (S p) * (ulp64 * M)) by (apply Rmult_le_compat_r; lra).
      assert (J2 : 2 * tiny64 <= INR (S p) * tiny64) by (apply Rmult_le_compat_r; lra).
      assert (J3 : INR (S p) * (ulp64 * e) <= INR (S p) * (/ 50 * (ulp64 * M) + / 100 * tiny64)) by (apply Rmult_le_compat_l; lra).
      unfold e at 1; lra. }
    clear - Na Nb D B.
    unfold near64, curve_xyz in *; cbn [map] in Na, Nb.
    inversion Na as [|a0 ? ? ? (Fa0 & A0) Na1 Ea1]; subst; inversion Na1 as [|a1 ? ? ? (Fa1 & A1) Na2]; subst;
      inversion Na2 as [|a2 ? ? ? (Fa2 & A2) Na3]; subst; inversion Na3; subst.
    inversion Nb as [|b0 ? ? ? (Fb0 & B0) Nb1]; subst; inversion Nb1 as [|b1 ? ? ? (Fb1 & B1) Nb2]; subst;
      inversion Nb2 as [|b2 ? ? ? (Fb2 & B2) Nb3]; subst; inversion Nb3; subst.
    assert (K : forall a b s t, Rabs (a - s) <= 10 * INR (S p) * (ulp64 * M + tiny64) -> Rabs (b - t) <= 10 * INR (S p) * (ulp64 * (M + e) + tiny64) ->
      Rabs (t - s) <= e -> Rabs (b - a) <= 27 * INR (S p) * (ulp64 * M + tiny64)).
    { intros a b s t X1 X2 X3; replace (b - a) with ((t - s) + (b - t) - (a - s)) by ring.
      unfold Rminus at 1; eapply Rle_trans; [apply Rabs_triang|]; rewrite Rabs_Ropp; eapply Rle_trans; [apply Rplus_le_compat_r, Rabs_triang|]; lra. }
    cbn [values map]; repeat (apply Forall2_cons; [split; [assumption|eapply K; try eassumption; apply D; lia]|]); constructor.
Qed.
