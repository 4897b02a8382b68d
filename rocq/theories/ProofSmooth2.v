(** Lipschitz bound, first guesses, uniqueness and recovery of control points. *)
From Coq Require Import Sorted.
From Verif Require Import Py PyLemmas Num ModelKnots ModelBasis ModelCurve ModelSurface ModelParam ModelFit Spec SpecParam SpecFit SpecSmooth MathCox MathKnots MathDeriv MathJoin MathSmooth
  ProofNum ProofSpan ProofBasis ProofSpan2 ProofKnots ProofInsert2 ProofCurve ProofCurve2 ProofSurface ProofParam ProofFit4 ProofFit6 ProofFit9 ProofSmooth.
Open Scope R_scope.

Definition co (c : list R) (i : Z) : R := nth (Z.to_nat i) c 0.
Lemma span_sum_comb U s p c u : span_sum U s p c u = comb (kn U) s p (co c) u.
Proof. reflexivity. Qed.

(** ** Lipschitz bound *)
Section Lipschitz.
Variables (p : nat) (n : Z) (U : list R) (c : list R) (L : R).
Hypothesis HC : clamped (Z.of_nat p) n U.
Hypothesis Hn : Z.of_nat (length c) = n.
Hypothesis Hp : (1 <= p)%nat.
Hypothesis HD : continuous (Z.of_nat p) n U.
Hypothesis HL : slopes p U c L.

Lemma span_lipschitz s u v : (Z.of_nat p <= s < n)%Z -> kn U s < kn U (s + 1) -> kn U s <= u -> u <= v -> v <= kn U (s + 1) ->
  Rabs (curve_sum U p c v - curve_sum U p c u) <= L * (v - u).
Proof.
  intros Hs Hlt Hu Huv Hv; rewrite <- !(span_sum_curve p n U c _ s) by (try assumption; try lra; right; assumption).
  rewrite !span_sum_comb; apply comb_lipschitz; try assumption; [apply kn_mono; apply HC|].
  intros i Hi; apply HL; unfold len; lia.
Qed.
Lemma curve_lipschitz_from m : forall s u v, (Z.of_nat p <= s < n)%Z -> (n - s <= Z.of_nat m)%Z -> kn U s < kn U (s + 1) -> kn U s <= u <= kn U (s + 1) -> u <= v -> v <= kn U n ->
  Rabs (curve_sum U p c v - curve_sum U p c u) <= L * (v - u).
Proof.
  destruct (clamped_facts _ _ U HC) as (_ & Hpn & _ & HU & _ & Hr & HE & _).
  induction m as [|m IH]; intros s u v Hs Hm Hlt Hu Huv Hv; [lia|].
  destruct (Rle_dec v (kn U (s + 1))) as [V|V]; [apply (span_lipschitz s); try assumption; lra|].
  pose proof (kn_mono U HU (Z.of_nat p) s ltac:(lia)) as M.
  destruct (clamped_in_span (Z.of_nat p) n U (kn U (s + 1)) HC ltac:(lra)) as (s' & Hs' & I).
  assert (I' : kn U s' <= kn U (s + 1) < kn U (s' + 1)) by (destruct I as [I|(_ & _ & E)]; [exact I|rewrite HE in E; lra]).
  assert (Lss : (s < s')%Z).
  { destruct (Z_lt_dec s s'); [assumption|]; pose proof (kn_mono U HU (s' + 1) (s + 1) ltac:(lia)); lra. }
  pose proof (span_lipschitz s u (kn U (s + 1)) Hs Hlt ltac:(lra) ltac:(lra) ltac:(lra)) as A.
  pose proof (IH s' (kn U (s + 1)) v Hs' ltac:(lia) ltac:(lra) ltac:(lra) ltac:(lra) Hv) as B.
  pose proof (Rabs_triang (curve_sum U p c v - curve_sum U p c (kn U (s + 1))) (curve_sum U p c (kn U (s + 1)) - curve_sum U p c u)) as T.
  replace (curve_sum U p c v - curve_sum U p c (kn U (s + 1)) + (curve_sum U p c (kn U (s + 1)) - curve_sum U p c u)) with (curve_sum U p c v - curve_sum U p c u) in T by ring.
  lra.
Qed.
Lemma curve_lipschitz u v : kn U (Z.of_nat p) <= u <= kn U n -> kn U (Z.of_nat p) <= v <= kn U n ->
  Rabs (curve_sum U p c u - curve_sum U p c v) <= L * Rabs (u - v).
Proof.
  assert (W : forall u v, kn U (Z.of_nat p) <= u -> u <= v -> v <= kn U n -> Rabs (curve_sum U p c v - curve_sum U p c u) <= L * (v - u)).
  { clear u v; intros u v Hu Huv Hv; destruct (clamped_in_span (Z.of_nat p) n U u HC ltac:(lra)) as (s & Hs & I).
    pose proof (in_span_width _ _ _ I); pose proof (in_span_closed _ _ _ I); apply (curve_lipschitz_from (Z.to_nat (n - s)) s); try assumption; lia. }
  intros Hu Hv; destruct (Rle_dec u v) as [E|E].
  - rewrite Rabs_minus_sym, (Rabs_minus_sym u v), (Rabs_right (v - u)) by lra; apply W; lra.
  - rewrite (Rabs_right (u - v)) by lra; apply W; lra.
Qed.
End Lipschitz.

(** ** Distances in space *)
Lemma norm3_triang a1 a2 a3 b1 b2 b3 :
  sqrt ((a1 + b1) * (a1 + b1) + (a2 + b2) * (a2 + b2) + (a3 + b3) * (a3 + b3)) <= sqrt (a1 * a1 + a2 * a2 + a3 * a3) + sqrt (b1 * b1 + b2 * b2 + b3 * b3).
Proof.
  set (A := a1 * a1 + a2 * a2 + a3 * a3); set (B := b1 * b1 + b2 * b2 + b3 * b3).
  assert (HA : 0 <= A) by (unfold A; nra); assert (HB : 0 <= B) by (unfold B; nra).
  assert (D : a1 * b1 + a2 * b2 + a3 * b3 <= sqrt A * sqrt B).
  { rewrite <- sqrt_mult by assumption; apply Rle_trans with (1 := Rle_abs _); rewrite <- sqrt_Rsqr_abs; apply sqrt_le_1_alt; unfold Rsqr, A, B.
    pose proof (Rle_0_sqr (a1 * b2 - a2 * b1)) as Q1; pose proof (Rle_0_sqr (a1 * b3 - a3 * b1)) as Q2; pose proof (Rle_0_sqr (a2 * b3 - a3 * b2)) as Q3; unfold Rsqr in Q1, Q2, Q3.
    replace ((a1 * a1 + a2 * a2 + a3 * a3) * (b1 * b1 + b2 * b2 + b3 * b3)) with
      ((a1 * b1 + a2 * b2 + a3 * b3) * (a1 * b1 + a2 * b2 + a3 * b3) + (a1 * b2 - a2 * b1) * (a1 * b2 - a2 * b1) + (a1 * b3 - a3 * b1) * (a1 * b3 - a3 * b1) + (a2 * b3 - a3 * b2) * (a2 * b3 - a3 * b2)) by ring; lra. }
  pose proof (sqrt_pos A); pose proof (sqrt_pos B).
  rewrite <- (sqrt_Rsqr (sqrt A + sqrt B)) by lra; apply sqrt_le_1_alt; unfold Rsqr.
  replace ((sqrt A + sqrt B) * (sqrt A + sqrt B)) with (sqrt A * sqrt A + sqrt B * sqrt B + 2 * (sqrt A * sqrt B)) by ring.
  rewrite !sqrt_sqrt by assumption; unfold A, B in *; lra.
Qed.
Lemma dist3 a b : length a = 3%nat -> length b = 3%nat ->
  distR a b = sqrt ((nth 0 a 0 - nth 0 b 0) * (nth 0 a 0 - nth 0 b 0) + (nth 1 a 0 - nth 1 b 0) * (nth 1 a 0 - nth 1 b 0) + (nth 2 a 0 - nth 2 b 0) * (nth 2 a 0 - nth 2 b 0)).
Proof.
  intros La Lb; destruct a as [|a1 [|a2 [|a3 [|]]]]; try discriminate La; destruct b as [|b1 [|b2 [|b3 [|]]]]; try discriminate Lb.
  unfold distR, normR, dotR, subR; cbn; f_equal; ring.
Qed.
Lemma dist3_triang a b c : length a = 3%nat -> length b = 3%nat -> length c = 3%nat -> distR a c <= distR a b + distR b c.
Proof.
  intros La Lb Lc; rewrite !dist3 by assumption.
  pose proof (norm3_triang (nth 0 a 0 - nth 0 b 0) (nth 1 a 0 - nth 1 b 0) (nth 2 a 0 - nth 2 b 0) (nth 0 b 0 - nth 0 c 0) (nth 1 b 0 - nth 1 c 0) (nth 2 b 0 - nth 2 c 0)) as T.
  eapply Rle_trans; [|exact T]; right; f_equal; ring.
Qed.
Lemma dist3_bound a b L0 L1 L2 h : length a = 3%nat -> length b = 3%nat -> 0 <= h ->
  Rabs (nth 0 a 0 - nth 0 b 0) <= L0 * h -> Rabs (nth 1 a 0 - nth 1 b 0) <= L1 * h -> Rabs (nth 2 a 0 - nth 2 b 0) <= L2 * h ->
  distR a b <= sqrt (L0 * L0 + L1 * L1 + L2 * L2) * h.
Proof.
  intros La Lb Hh B0 B1 B2; rewrite dist3 by assumption.
  rewrite <- (sqrt_square h) by exact Hh; rewrite <- sqrt_mult by nra; apply sqrt_le_1_alt.
  assert (S : forall x l, Rabs x <= l * h -> x * x <= l * l * (h * h)).
  { intros x l H; pose proof (Rabs_pos x); replace (x * x) with (Rabs x * Rabs x) by (rewrite <- Rabs_mult; apply Rabs_right; nra).
    replace (l * l * (h * h)) with (l * h * (l * h)) by ring; apply Rmult_le_compat; lra. }
  apply S in B0; apply S in B1; apply S in B2; lra.
Qed.

Lemma point_lipschitz p U P L0 L1 L2 u v : clamped (Z.of_nat p) (len P) U -> (1 <= p)%nat -> continuous (Z.of_nat p) (len P) U ->
  slopes p U (coords 0 P) L0 -> slopes p U (coords 1 P) L1 -> slopes p U (coords 2 P) L2 ->
  kn U (Z.of_nat p) <= u <= kn U (len P) -> kn U (Z.of_nat p) <= v <= kn U (len P) ->
  distR (curve_xyz U p P u) (curve_xyz U p P v) <= sqrt (L0 * L0 + L1 * L1 + L2 * L2) * Rabs (u - v).
Proof.
  intros HC Hp HD S0 S1 S2 Hu Hv; apply dist3_bound; try reflexivity; [apply Rabs_pos| | |]; unfold curve_xyz; cbn [map nth];
    apply (curve_lipschitz p (len P)); try assumption; unfold coords, len; rewrite map_length; reflexivity.
Qed.

(** Every parameter is near a sample. *)
Lemma near_sample n u : (1 <= n)%Z -> 0 <= u <= 1 -> exists i, (0 <= i <= n)%Z /\ Rabs (u - IZR i / IZR n) <= / (2 * IZR n).
Proof.
  intros Hn Hu; assert (Pn : 1 <= IZR n) by (apply IZR_le; exact Hn).
  destruct (archimed (u * IZR n + / 2)) as [A1 A2]; set (z := up (u * IZR n + / 2)) in *.
  assert (B1 : (0 < z)%Z) by (apply lt_IZR; nra).
  assert (B2 : (z - 1 <= n)%Z) by (apply Z.lt_succ_r, lt_IZR; unfold Z.succ; rewrite minus_IZR, plus_IZR; nra).
  exists (z - 1)%Z; split; [lia|]; rewrite minus_IZR.
  replace (u - (IZR z - 1) / IZR n) with ((u * IZR n - (IZR z - 1)) / IZR n) by (field; lra).
  unfold Rdiv; rewrite Rabs_mult, Rabs_inv, (Rabs_right (IZR n)) by lra; replace (/ (2 * IZR n)) with (/ 2 * / IZR n) by (field; lra).
  apply Rmult_le_compat_r; [left; apply Rinv_0_lt_compat; lra|]; apply Rabs_le; lra.
Qed.

Lemma guess_near (b : curve_beh Exact) p U P d Q L0 L1 L2 : clamped (Z.of_nat p) (len P) U -> strict (Z.of_nat p) (len P) U -> kn U (Z.of_nat p) = 0 -> kn U (len P) = 1 ->
  wide_end (len P) U -> (1 <= p)%nat -> Forall (fun row => length row = 3%nat) P -> length Q = 3%nat ->
  cb_count b = len P -> (forall u, cb_point b u = single_point (curve_of (Z.of_nat p) U P d) u) ->
  slopes p U (coords 0 P) L0 -> slopes p U (coords 1 P) L1 -> slopes p U (coords 2 P) L2 ->
  exists g, 0 <= g <= 1 /\ initial_guess_curve b (fin Q) = Ok (Fin g : Exact) /\
    ((exists u, 0 <= u <= 1 /\ distR Q (curve_xyz U p P u) + sqrt (L0 * L0 + L1 * L1 + L2 * L2) / (2 * IZR (2 * len P - 1)) < 1000000) ->
     forall u, 0 <= u <= 1 -> distR Q (curve_xyz U p P g) <= distR Q (curve_xyz U p P u) + sqrt (L0 * L0 + L1 * L1 + L2 * L2) / (2 * IZR (2 * len P - 1))).
Proof.
  intros HC HS H0 H1 HW Hp HF HQ Hb Hpt S0 S1 S2.
  assert (HD : continuous (Z.of_nat p) (len P) U) by (apply strict_continuous; [exact HC|lia|exact HS]).
  assert (Hn : (1 <= len P)%Z) by (destruct HC as ((_ & H & _) & _); lia).
  assert (Rg : forall i, (0 <= i < 2 * len P)%Z -> 0 <= IZR i / IZR (2 * len P - 1) <= 1).
  { intros i Hi; assert (0 < IZR (2 * len P - 1)) by (apply IZR_lt; lia); assert (0 <= IZR i <= IZR (2 * len P - 1)) by (split; apply IZR_le; lia).
    split; [apply Rmult_le_pos; [lra|left; apply Rinv_0_lt_compat; lra]|apply Rmult_le_reg_r with (IZR (2 * len P - 1)); [lra|]].
    unfold Rdiv; rewrite Rmult_assoc, Rinv_l by lra; lra. }
  destruct (initial_guess_spec b Q (fun i => curve_xyz U p P (IZR i / IZR (2 * len P - 1))) (len P) Hb Hn) as (k & Hk & E & M & _).
  { intros i Hi; split; [|rewrite HQ; reflexivity]; rewrite Hpt; apply single_point_strict; try assumption; [apply Rg; exact Hi|apply (wide_close (len P)); exact HW]. }
  exists (IZR k / IZR (2 * len P - 1)); split; [apply Rg; exact Hk|]; split; [exact E|].
  assert (Nr : forall u, 0 <= u <= 1 -> exists i, (0 <= i < 2 * len P)%Z /\
    distR Q (curve_xyz U p P (IZR i / IZR (2 * len P - 1))) <= distR Q (curve_xyz U p P u) + sqrt (L0 * L0 + L1 * L1 + L2 * L2) / (2 * IZR (2 * len P - 1))).
  { intros u Hu; destruct (near_sample (2 * len P - 1) u ltac:(lia) Hu) as (i & Hi & Bi); exists i; split; [lia|].
    eapply Rle_trans; [apply (dist3_triang Q (curve_xyz U p P u)); [exact HQ|reflexivity|reflexivity]|]; apply Rplus_le_compat_l.
    eapply Rle_trans; [apply (point_lipschitz p U P L0 L1 L2); try assumption; rewrite H0, H1; [exact Hu|apply Rg; lia]|].
    unfold Rdiv; apply Rmult_le_compat_l; [apply sqrt_pos|exact Bi]. }
  intros (u0 & Hu0 & B0) u Hu; destruct M as [M _].
  - destruct (Nr u0 Hu0) as (i & Hi & Bi); exists i; split; [exact Hi|lra].
  - destruct (Nr u Hu) as (i & Hi & Bi); eapply Rle_trans; [apply (M i Hi)|exact Bi].
Qed.

(** ** Uniqueness *)
Lemma sum_unique p n U c c' : clamped (Z.of_nat p) n U -> strict (Z.of_nat p) n U -> (1 <= p)%nat -> Z.of_nat (length c) = n -> length c' = length c ->
  plenty (S p) (Z.of_nat p) n U (fun u => curve_sum U p c u = curve_sum U p c' u) -> c = c'.
Proof.
  intros HC HS Hp Hn Hl HP; assert (HD : continuous (Z.of_nat p) n U) by (apply strict_continuous; [exact HC|lia|exact HS]).
  assert (Hpn : (Z.of_nat p + 1 <= n)%Z) by apply HC.
  apply (nth_ext _ _ 0 0); [lia|]; intros i Hi.
  set (s := Z.max (Z.of_nat p) (Z.of_nat i)); assert (Hs : (Z.of_nat p <= s < n)%Z) by lia.
  destruct (HP s Hs) as (xs & LX & SX & FX).
  assert (E : co c (Z.of_nat i) - co c' (Z.of_nat i) = 0).
  { apply (comb_roots (kn U) s (kn_mono U (proj2 (proj2 (proj2 (proj1 HC))))) (HS s Hs) p (fun i => co c i - co c' i) xs SX LX); [|lia].
    eapply Forall_impl; [|exact FX]; intros u [Hu Eu]; cbn beta in *.
    rewrite <- !(span_sum_curve p n U _ _ s) in Eu by (try assumption; try lia; try (apply HS; exact Hs); right; exact HD).
    rewrite !span_sum_comb in Eu; unfold comb in *.
    rewrite (zsum_ext _ _ _ (fun i => cox (delta s) (kn U) p i u * co c i - cox (delta s) (kn U) p i u * co c' i)) by (intros; ring).
    rewrite zsum_minus; lra. }
  unfold co in E; rewrite Nat2Z.id in E; lra.
Qed.
Lemma coords_ext (P Q : list (list R)) : length Q = length P -> Forall (fun r => length r = 3%nat) P -> Forall (fun r => length r = 3%nat) Q ->
  (forall c, (c < 3)%nat -> coords c P = coords c Q) -> P = Q.
Proof.
  intros HL FP FQ H; apply (nth_ext _ _ [] []); [lia|]; intros i Hi; rewrite Forall_forall in FP, FQ.
  apply row3_ext; [apply FP, nth_In; exact Hi|apply FQ, nth_In; lia|]; intros c Hc; rewrite <- !nth_coords, (H c Hc); reflexivity.
Qed.
Lemma curve_unique p U P Q : clamped (Z.of_nat p) (len P) U -> strict (Z.of_nat p) (len P) U -> (1 <= p)%nat -> length Q = length P ->
  Forall (fun r => length r = 3%nat) P -> Forall (fun r => length r = 3%nat) Q ->
  plenty (S p) (Z.of_nat p) (len P) U (fun u => curve_xyz U p P u = curve_xyz U p Q u) -> P = Q.
Proof.
  intros HC HS Hp HL FP FQ HP; apply coords_ext; try assumption; intros c Hc.
  apply (sum_unique p (len P) U); try assumption; [unfold coords, len; rewrite map_length; reflexivity|unfold coords; rewrite !map_length; exact HL|].
  intros s Hs; destruct (HP s Hs) as (xs & L & S & F); exists xs; split; [exact L|]; split; [exact S|].
  eapply Forall_impl; [|exact F]; intros u [Hu E]; split; [exact Hu|].
  pose proof (f_equal (fun l => nth c l 0) E) as Ec; cbn beta in Ec; unfold curve_xyz in Ec; rewrite !nth_map3 in Ec by exact Hc; exact Ec.
Qed.
