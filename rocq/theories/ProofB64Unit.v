(** [check_knot_vector] on binary64 knots from 0 to 1: rescaling is exact there. *)
From Coq Require Import Reals Lra Lia ZArith List Floats.
From Flocq Require Import Core.Core.
From Verif Require Import Py PyLemmas Num ModelKnots Spec SpecB64 MathCox MathKnots ProofNum ProofBasis ProofSpan ProofKnots
  ProofB64 ProofB64Basis ProofB64Span ProofB64Knots.
Import ListNotations.
Open Scope R_scope.

Lemma increasing64_inv (l : list PrimFloat.float) : Forall finite64 l -> forall x : Binary64, finite64 x ->
  increasing_from (K := Binary64) x l = true ->
  (forall y, In y l -> value x <= value y) /\
  (forall i j, (i <= j < length l)%nat -> value (nth i l 0%float) <= value (nth j l 0%float)).
Proof.
  induction 1 as [|y t Fy Ft IH]; intros x Fx H; [split; [intros y []|cbn; lia]|]; cbn [increasing_from] in H.
  destruct (nltb (y : Binary64) x) eqn:E; [discriminate H|].
  pose proof (ge_ltb y x _ _ Fy Fx eq_refl eq_refl E) as L.
  destruct (IH y Fy H) as (A & B); split.
  - intros z [<-|Hz]; [exact L|]; pose proof (A z Hz); lra.
  - intros [|i] [|j] Hij; cbn [nth length] in *; [lra| |lia|apply B; lia].
    apply A, nth_In; lia.
Qed.
Lemma isclose5_inv (a b : Binary64) : finite64 a -> finite64 b -> Rabs (value a) <= 1 -> Rabs (value b) <= 1 ->
  isclose a b = true -> Rabs (value a - value b) <= 101/10000000000 + 101/10000000 * Rabs (value b).
Proof.
  intros Fa Fb Ba Bb H; destruct lit5_ok as (F & V); apply Rnot_lt_le; intros C.
  assert (P : 1 <= bpow radix2 1000) by (change 1 with (bpow radix2 0); apply bpow_le; lia).
  enough (isclose a b = false) by congruence.
  apply (proj2 (isclose64 (lit_1em5 : Binary64) a b (1 / 100000) F ltac:(lra) V Fa Fb ltac:(lra) ltac:(lra))).
  eapply Rle_lt_trans; [|exact C]; pose proof (Rabs_pos (value b)); pose proof ulp64_small as (U0 & U1).
  assert (8 * ulp64 * (1 / 100000000 + 1 / 100000 * Rabs (value b)) <= 1/100 * (1 / 100000000 + 1 / 100000 * Rabs (value b)))
    by (apply Rmult_le_compat_r; lra); lra.
Qed.

Section Unit.
Variables (lo hi : Binary64).
Hypothesis Flo : finite64 lo.
Hypothesis Fhi : finite64 hi.
Hypothesis Vlo : value lo = 0.
Hypothesis Vhi : value hi = 1.
Lemma rnd_value (x : Binary64) : rnd (value x) = value x.
Proof. apply rnd_fmt, value_fmt. Qed.
Lemma one_format : rnd 1 = 1.
Proof. rewrite <- (value_1), (rnd_value 1%num); reflexivity. Qed.
Lemma small_safe (x : R) : Rabs x <= 1 -> Rabs (rnd x) < bpow radix2 1024.
Proof. intros H; apply rnd_safe with 0%Z; [lia|exact H]. Qed.
Lemma unit_factor : finite64 (factor lo hi) /\ value (factor lo hi) = 1.
Proof.
  destruct (sub64 hi lo Fhi Flo) as (F & V); [rewrite Vlo, Vhi, Rminus_0_r; apply small_safe; rewrite Rabs_R1; lra|].
  rewrite Vlo, Vhi, Rminus_0_r, one_format in V.
  destruct (div64 (1%num : Binary64) (hi - lo)%float finite_1 F) as (F' & V').
  - rewrite V; lra.
  - rewrite V, value_1; unfold Rdiv; rewrite Rinv_1, Rmult_1_r; apply small_safe; rewrite Rabs_R1; lra.
  - split; [exact F'|]; rewrite V, value_1 in V'; unfold Rdiv in V'; rewrite Rinv_1, Rmult_1_r, one_format in V'; exact V'.
Qed.
Lemma unit_scaled (x : Binary64) : finite64 x -> 0 <= value x <= 1 -> finite64 (scaled lo hi x) /\ value (scaled lo hi x) = value x.
Proof.
  intros Fx Hx.
  assert (Bx : Rabs (value x) <= 1) by (rewrite Rabs_right; lra).
  destruct (mul64 lo (1%num : Binary64) Flo finite_1) as (F1 & V1); [rewrite Vlo, Rmult_0_l; apply small_safe; rewrite Rabs_R0; lra|].
  rewrite Vlo, Rmult_0_l, rnd_0 in V1.
  destruct (sub64 x (lo * (1%num : Binary64))%float Fx F1) as (F2 & V2); [rewrite V1, Rminus_0_r; apply small_safe; exact Bx|].
  rewrite V1, Rminus_0_r, rnd_value in V2.
  destruct unit_factor as (F3 & V3).
  destruct (mul64 (x - lo * (1%num : Binary64))%float (factor lo hi) F2 F3) as (F4 & V4);
    [rewrite V2, V3, Rmult_1_r; apply small_safe; exact Bx|].
  rewrite V2, V3, Rmult_1_r, rnd_value in V4; split; [exact F4|exact V4].
Qed.
End Unit.

Lemma check_unit_b64 p n (U : list PrimFloat.float) : (0 <= p)%Z -> (p + 1 <= n)%Z -> within 0 1 U ->
  In 0 (values U) -> In 1 (values U) -> check_knot_vector p (NdArray (U : list Binary64)) n = Ok true ->
  knots_for p n (values U) /\ kn (values U) p <= 102/10000000000 /\ 1 - kn (values U) n <= 102/10000000.
Proof.
  intros Hp Hn W I0 I1 H.
  assert (FU := within_finite _ _ _ W).
  assert (NE : U <> []) by (intros ->; exact I0).
  destruct (np_max64 U NE FU) as (hi & Ehi & Ihi & Ghi); destruct (np_min64 U NE FU) as (lo & Elo & Ilo & Glo).
  assert (WU : forall x, In x U -> finite64 x /\ 0 <= value x <= 1) by (apply Forall_forall; exact W).
  apply in_map_iff in I0; destruct I0 as (x0 & E0 & I0); apply in_map_iff in I1; destruct I1 as (x1 & E1 & I1).
  assert (Vlo : value lo = 0) by (pose proof (Glo _ I0); pose proof (WU _ Ilo); lra).
  assert (Vhi : value hi = 1) by (pose proof (Ghi _ I1); pose proof (WU _ Ihi); lra).
  assert (Flo : finite64 lo) by (apply WU, Ilo); assert (Fhi : finite64 hi) by (apply WU, Ihi).
  set (g := fun i => nth (Z.to_nat i) U 0%float); set (y := fun i => scaled lo hi (g i)).
  assert (EU : U = tab (length U) g) by (apply list_as_tab).
  assert (EN : normalize (NdArray (U : list Binary64)) = Ok (tab (length U) y)).
  { unfold normalize; cbn zeta.
    match goal with |- bind ?m _ = _ => replace m with (Ok hi : res Binary64) by (symmetry; exact Ehi) end; cbn [bind].
    match goal with |- bind ?m _ = _ => replace m with (Ok lo : res Binary64) by (symmetry; exact Elo) end; cbn [bind].
    apply (f_equal Ok); rewrite map_map; transitivity (map (scaled lo hi) (tab (length U) g)); [rewrite <- EU; reflexivity|exact (map_tab (scaled lo hi) (length U) g)]. }
  assert (Y : forall i, (0 <= i < len U)%Z -> finite64 (y i) /\ value (y i) = kn (values U) i /\ 0 <= value (y i) <= 1).
  { intros i Hi; assert (I : In (g i) U) by (apply nth_In; unfold len in Hi; lia); destruct (WU _ I) as (F & B).
    destruct (unit_scaled lo hi Flo Fhi Vlo Vhi (g i) F B) as (F' & V); split; [exact F'|]; unfold y; rewrite V.
    split; [symmetry; apply kn_values; lia|exact B]. }
  unfold check_knot_vector in H; rewrite EN in H; cbn [bind] in H; rewrite zlen_tab in H.
  destruct (Z.eqb_spec (Z.of_nat (length U)) (n + p + 1)) as [L|L]; cbn [negb] in H; [|discriminate H].
  assert (HL : len U = (n + p + 1)%Z) by exact L.
  rewrite (np_full_tab' (p + 1) (Z.to_nat (p + 1)) (0%num : Binary64)) in H by lia; cbn [bind] in H.
  rewrite slice_tab in H by lia; replace (Z.to_nat (p + 1 - 0)) with (Z.to_nat (p + 1)) in H by lia.
  unfold allclose at 1 in H; rewrite !zlen_tab, Z.eqb_refl, combine_tab in H; cbn [bind] in H.
  destruct (forallb _ _) eqn:C1 in H; cbn [negb] in H; [|discriminate H].
  rewrite (np_full_tab' (p + 1) (Z.to_nat (p + 1)) (1%num : Binary64)) in H by lia; cbn [bind] in H.
  rewrite aget_tab_neg in H by lia; cbn [bind] in H.
  replace (Z.of_nat (length U) + -1 * (p + 1))%Z with n in H by lia.
  destruct (allclose _ [y n]) as [[]| |] eqn:C2 in H; cbn [bind negb] in H; try discriminate H.
  rewrite aget_tab in H by lia; cbn [bind] in H; injection H as H.
  destruct (Y p ltac:(lia)) as (Fp & Vp & Bp); destruct (Y n ltac:(lia)) as (Fn & Vn & Bn).
  split; [split; [exact Hp|]; split; [exact Hn|]; split; [rewrite len_values; exact HL|]|split].
  - destruct (increasing64_inv (tab (length U) y)) with (x := y 0%Z) as (_ & M).
    + apply Forall_tab; intros i Hi; apply Y; unfold len; lia.
    + apply Y; lia.
    + exact H.
    + intros i j Hij Hj; rewrite len_values in Hj; specialize (M (Z.to_nat i) (Z.to_nat j)).
      rewrite tab_length in M; unfold len in Hj; specialize (M ltac:(lia)); rewrite !nth_tab, !Z2Nat.id in M by lia.
      rewrite (proj1 (proj2 (Y i ltac:(unfold len; lia)))), (proj1 (proj2 (Y j ltac:(unfold len; lia)))) in M; exact M.
  - rewrite forallb_forall in C1; specialize (C1 (0%num : Binary64, y p)); cbn [fst snd] in C1.
    assert (IC : isclose (0%num : Binary64) (y p) = true).
    { apply C1; unfold tab; apply in_map_iff; exists (Z.to_nat p); split; [f_equal; f_equal; lia|apply in_seq; lia]. }
    apply isclose5_inv in IC; [|exact finite_0|exact Fp|rewrite value_0, Rabs_R0; lra|rewrite Rabs_right; lra].
    rewrite value_0, Rminus_0_l, Rabs_Ropp, Rabs_right in IC by lra; rewrite <- Vp; lra.
  - assert (IC : isclose (1%num : Binary64) (y n) = true).
    { unfold allclose in C2; rewrite zlen_tab in C2; unfold zlen in C2; cbn [length] in C2.
      replace (Z.to_nat (p + 1)) with (S (Z.to_nat p)) in C2 by lia; rewrite tab_cons in C2.
      destruct (Z.of_nat (S (Z.to_nat p)) =? Z.of_nat 1)%Z.
      - cbn [combine forallb fst snd] in C2; injection C2 as C2; apply andb_prop in C2; apply C2.
      - destruct (tab (Z.to_nat p) (fun _ : Z => 1%num)); cbn [forallb] in C2; injection C2 as C2; apply andb_prop in C2; apply C2. }
    apply isclose5_inv in IC; [|exact finite_1|exact Fn|rewrite value_1, Rabs_R1; lra|rewrite Rabs_right; lra].
    rewrite value_1, (Rabs_right (value (y n))) in IC by lra; apply Rabs_le_inv in IC; rewrite <- Vn; lra.
Qed.

Lemma uniform_accepted_ex p n : (0 <= p)%Z -> (p + 1 <= n)%Z -> (n - p <= 2 ^ 49)%Z ->
  exists U : list PrimFloat.float, generate_uniform p n = Ok (U : list Binary64) /\
    check_knot_vector p (NdArray (U : list Binary64)) n = Ok true.
Proof.
  intros Hp Hn Hb; pose proof (uniform_accepted_b64 p n Hp Hn Hb) as A.
  destruct (generate_uniform_b64 p n Hp Hn Hb) as (U & E & _); exists U; rewrite E in A; split; [exact E|exact A].
Qed.
