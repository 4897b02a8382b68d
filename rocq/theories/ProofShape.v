(** Monotone and convex curves and surfaces. *)
From Coq Require Import Sorted.
From Verif Require Import Py PyLemmas Num ModelKnots ModelBasis ModelCurve ModelSurface Spec SpecSmooth SpecShape
  MathCox MathKnots MathDeriv MathJoin MathSmooth MathShape ProofNum ProofSpan2 ProofCurve ProofSurface ProofParam5 ProofParam6 ProofSmooth ProofSmooth2 ProofSmooth3 ProofSmooth9.
Open Scope R_scope.

Lemma curve_rates p n U c l L u v : clamped (Z.of_nat p) n U -> Z.of_nat (length c) = n -> (1 <= p)%nat -> continuous (Z.of_nat p) n U -> rates p U c l L ->
  kn U (Z.of_nat p) <= u -> u <= v -> v <= kn U n -> l * (v - u) <= curve_sum U p c v - curve_sum U p c u <= L * (v - u).
Proof.
  intros HC Hn Hp HD HL; revert u v.
  apply (chain_spans (Z.of_nat p) n U (fun u v => l * (v - u) <= curve_sum U p c v - curve_sum U p c u <= L * (v - u)) HC); [intros u w v H1 H2 A B; lra|].
  intros s u v Hs Hlt Hu Huv Hv; rewrite <- !(span_sum_curve p n U c _ s) by (try assumption; try lra; right; assumption).
  rewrite !span_sum_comb; apply comb_rates; try assumption; [apply kn_mono; apply HC|].
  intros i Hi; apply HL; unfold len; lia.
Qed.

Lemma ders_comb U s p c u : nondecreasing U -> kn U s < kn U (s + 1) -> (Z.of_nat (S p) <= s < len c)%Z -> curve_ders U s (S p) 1 c u = comb (kn U) s p (dcoef (kn U) p (co c)) u.
Proof.
  intros HU Hlt Hs.
  assert (E : forall x, curve_ders U s (S p) 0 c x = comb (kn U) s (S p) (co c) x).
  { intros x; rewrite <- (curve_ders_window U s (S p) 0 c x Hs); unfold comb.
    pose proof (zsum_shift 0 (s - Z.of_nat (S p)) (S (S p)) (fun i => cox (delta s) (kn U) (S p) i x * co c i)) as E.
    rewrite Z.add_0_l in E; rewrite E; apply zsum_ext; intros i _; unfold co; cbn [Dx]; f_equal; [f_equal|do 2 f_equal]; lia. }
  eapply uniqueness_limite; [apply (curve_ders_derivable U s (S p) 0 c u HU)|].
  pose proof (comb_derivative (kn U) s (kn_mono U HU) Hlt p (co c) u) as D.
  intros eps He; destruct (D eps He) as (dl & Hd); exists dl; intros h Hh Hdl; rewrite !E; apply Hd; assumption.
Qed.

Lemma curve_convex p n U c u v w : clamped (Z.of_nat p) n U -> strict (Z.of_nat p) n U -> kn U (Z.of_nat p) = 0 -> kn U n = 1 -> wide_end n U ->
  Z.of_nat (length c) = n -> (2 <= p)%nat -> convex_rates p U c -> 0 <= u -> u <= v -> v <= w -> w <= 1 ->
  (curve_sum U p c v - curve_sum U p c u) * (w - v) <= (curve_sum U p c w - curve_sum U p c v) * (v - u).
Proof.
  intros HC HS H0 H1 HW Hn Hp HL Hu Huv Hvw Hw; assert (HU : nondecreasing U) by apply HC.
  assert (HD : continuous (Z.of_nat p) n U) by (apply strict_continuous; [exact HC|lia|exact HS]).
  set (g := row_at p n U 1 c).
  assert (G : forall x y, kn U (Z.of_nat p) <= x -> x <= y -> y <= kn U n ->
    g x <= g y /\ g x * (y - x) <= curve_sum U p c y - curve_sum U p c x <= g y * (y - x)).
  { apply (chain_spans (Z.of_nat p) n U (fun x y => g x <= g y /\ g x * (y - x) <= curve_sum U p c y - curve_sum U p c x <= g y * (y - x)) HC).
    - intros x z y A B (M1 & L1 & L2) (M2 & L3 & L4); split; [lra|].
      assert (g x * (y - z) <= g z * (y - z)) by (apply Rmult_le_compat_r; lra); assert (g z * (z - x) <= g y * (z - x)) by (apply Rmult_le_compat_r; lra); lra.
    - intros s x y Hs Hlt Hx Hxy Hy; rewrite <- !(span_sum_curve p n U c _ s) by (try assumption; try lra; right; assumption).
      unfold g; rewrite !(row_at_span p n U HC HS H0 H1 HW 1 c s) by (try lia; lra).
      destruct p as [|q]; [lia|]; rewrite !ders_comb by (try assumption; unfold len; lia); rewrite !span_sum_comb; apply comb_convex; try assumption; [apply kn_mono; exact HU|].
      intros i Hi; pose proof (width_pos (kn U) s (kn_mono U HU) Hlt q i ltac:(lia)) as W1; pose proof (width_pos (kn U) s (kn_mono U HU) Hlt q (i + 1)%Z ltac:(lia)) as W2.
      unfold dcoef; apply Rmult_le_compat_l; [apply pos_INR|].
      pose proof (HL i ltac:(lia) ltac:(unfold len; lia)) as B; unfold co.
      replace (i + Z.of_nat (S q))%Z with (i + Z.of_nat q + 1)%Z in B by lia; replace (i + 1 + Z.of_nat (S q))%Z with (i + 1 + Z.of_nat q + 1)%Z in B by lia.
      replace (i + 1 - 1)%Z with i by lia.
      set (w1 := kn U (i + Z.of_nat q + 1) - kn U i) in *; set (w2 := kn U (i + 1 + Z.of_nat q + 1) - kn U (i + 1)) in *.
      apply (Rmult_le_reg_r (w1 * w2)); [apply Rmult_lt_0_compat; assumption|].
      replace ((nth (Z.to_nat i) c 0 - nth (Z.to_nat (i - 1)) c 0) / w1 * (w1 * w2)) with ((nth (Z.to_nat i) c 0 - nth (Z.to_nat (i - 1)) c 0) * w2) by (field; lra).
      replace ((nth (Z.to_nat (i + 1)) c 0 - nth (Z.to_nat i) c 0) / w2 * (w1 * w2)) with ((nth (Z.to_nat (i + 1)) c 0 - nth (Z.to_nat i) c 0) * w1) by (field; lra).
      exact B. }
  rewrite <- H0 in Hu; rewrite <- H1 in Hw.
  destruct (G u v Hu Huv ltac:(lra)) as (_ & _ & A); destruct (G v w ltac:(lra) Hvw Hw) as (_ & B & _).
  apply Rle_trans with (g v * (v - u) * (w - v)); [apply Rmult_le_compat_r; lra|].
  replace (g v * (v - u) * (w - v)) with (g v * (w - v) * (v - u)) by ring; apply Rmult_le_compat_r; lra.
Qed.

(** A direction of a surface. *)
Lemma comb_line_rates p U n m V q l L v (f : nat -> nat -> R) : clamped (Z.of_nat q) (Z.of_nat m) V -> kn V (Z.of_nat q) <= v <= kn V (Z.of_nat m) ->
  (forall j, (j < m)%nat -> rates p U (map (fun i => f i j) (seq 0 n)) l L) ->
  rates p U (map (fun i => curve_sum V q (map (fun j => f i j) (seq 0 m)) v) (seq 0 n)) l L.
Proof.
  intros HC Hv H i; unfold len; rewrite map_length, seq_length; intros Hi.
  assert (E : forall a, (a < n)%nat -> nth a (map (fun i => curve_sum V q (map (fun j => f i j) (seq 0 m)) v) (seq 0 n)) 0 = zsum 0 m (fun j => bspline V q j v * f a (Z.to_nat j))).
  { intros a Ha; rewrite nth_map_seq0 by exact Ha; unfold curve_sum; rewrite map_length, seq_length; apply zsum_ext; intros j Hj; rewrite nth_map_seq0 by lia; reflexivity. }
  rewrite !E by lia; rewrite <- zsum_minus, <- zsum_scal.
  assert (X : forall x, x = zsum 0 m (fun j => bspline V q j v * x)) by (intros x; rewrite zsum_scal_r, bspline_unity by assumption; ring).
  rewrite (X (l * _)), (X (L * _)).
  split; apply zsum_le; intros j Hj; pose proof (H (Z.to_nat j) ltac:(lia) i) as B; unfold len in B; rewrite map_length, seq_length in B; specialize (B Hi); rewrite !nth_map_seq0 in B by lia;
    pose proof (bspline_nonneg V q j v (proj2 (proj2 (proj2 (proj1 HC))))); nra.
Qed.
Lemma surface_rates p q nu nv U V c l L u u' v : clamped (Z.of_nat p) (Z.of_nat nu) U -> (1 <= p)%nat -> continuous (Z.of_nat p) (Z.of_nat nu) U ->
  clamped (Z.of_nat q) (Z.of_nat nv) V ->
  (forall j, (j < nv)%nat -> rates p U (map (fun i => nth (i * nv + j) c 0) (seq 0 nu)) l L) ->
  kn U (Z.of_nat p) <= u -> u <= u' -> u' <= kn U (Z.of_nat nu) -> kn V (Z.of_nat q) <= v <= kn V (Z.of_nat nv) ->
  l * (u' - u) <= surface_sum U V p q nu nv c u' v - surface_sum U V p q nu nv c u v <= L * (u' - u).
Proof.
  intros CU Hp DU CV SL Hu Huu Hu' Hv; rewrite !surface_rows; apply (curve_rates p (Z.of_nat nu)); try assumption; [rewrite map_length, seq_length; reflexivity|].
  apply (comb_line_rates p U nu nv V q l L v (fun i j => nth (i * nv + j) c 0)); assumption.
Qed.
Lemma surface_rates_v p q nu nv U V c l L u v v' : clamped (Z.of_nat p) (Z.of_nat nu) U ->
  clamped (Z.of_nat q) (Z.of_nat nv) V -> (1 <= q)%nat -> continuous (Z.of_nat q) (Z.of_nat nv) V ->
  (forall i, (i < nu)%nat -> rates q V (map (fun j => nth (i * nv + j) c 0) (seq 0 nv)) l L) ->
  kn V (Z.of_nat q) <= v -> v <= v' -> v' <= kn V (Z.of_nat nv) -> kn U (Z.of_nat p) <= u <= kn U (Z.of_nat nu) ->
  l * (v' - v) <= surface_sum U V p q nu nv c u v' - surface_sum U V p q nu nv c u v <= L * (v' - v).
Proof.
  intros CU CV Hq DV SL Hv Hvv Hv' Hu; rewrite !surface_cols; apply (curve_rates q (Z.of_nat nv)); try assumption; [rewrite map_length, seq_length; reflexivity|].
  apply (comb_line_rates q V nv nu U p l L u (fun j i => nth (i * nv + j) c 0)); assumption.
Qed.

(** ** In terms of [single_point] and [surf_point] *)
Lemma nth_xyz U p P u c : (c < 3)%nat -> nth c (curve_xyz U p P u) 0 = curve_sum U p (coords c P) u.
Proof. intros H; destruct c as [|[|[|]]]; try lia; reflexivity. Qed.
Lemma nth_sxyz U V p q nu nv P u v c : (c < 3)%nat -> nth c (surface_xyz U V p q nu nv P u v) 0 = surface_sum U V p q nu nv (coords c P) u v.
Proof. intros H; destruct c as [|[|[|]]]; try lia; reflexivity. Qed.

Lemma single_point_rates p U P d c l L u v : clamped (Z.of_nat p) (len P) U -> (1 <= p)%nat -> strict (Z.of_nat p) (len P) U ->
  kn U (Z.of_nat p) = 0 -> kn U (len P) = 1 -> wide_end (len P) U -> Forall (fun row => length row = 3%nat) P ->
  (c < 3)%nat -> rates p U (coords c P) l L -> 0 <= u -> u <= v -> v <= 1 ->
  exists a b, single_point (curve_of (Z.of_nat p) U P d) (Fin u : Exact) = Ok (fin a) /\ single_point (curve_of (Z.of_nat p) U P d) (Fin v : Exact) = Ok (fin b) /\
    length a = 3%nat /\ length b = 3%nat /\ l * (v - u) <= nth c b 0 - nth c a 0 <= L * (v - u).
Proof.
  intros HC Hp HS H0 H1 HW HF Hc SL Hu Huv Hv; exists (curve_xyz U p P u), (curve_xyz U p P v).
  split; [apply single_point_wide; try assumption; lra|]; split; [apply single_point_wide; try assumption; lra|]; split; [reflexivity|]; split; [reflexivity|].
  rewrite !nth_xyz by exact Hc; apply (curve_rates p (len P)); rewrite ?H0, ?H1; try assumption; [unfold coords, len; rewrite map_length; reflexivity|apply strict_continuous; [assumption|lia|assumption]].
Qed.
Lemma single_point_injective p U P d c l L u v x : clamped (Z.of_nat p) (len P) U -> (1 <= p)%nat -> strict (Z.of_nat p) (len P) U ->
  kn U (Z.of_nat p) = 0 -> kn U (len P) = 1 -> wide_end (len P) U -> Forall (fun row => length row = 3%nat) P ->
  (c < 3)%nat -> rates p U (coords c P) l L -> 0 < l ->
  single_point (curve_of (Z.of_nat p) U P d) (Fin u : Exact) = Ok x -> single_point (curve_of (Z.of_nat p) U P d) (Fin v : Exact) = Ok x -> u = v.
Proof.
  intros HC Hp HS H0 H1 HW HF Hc SL Hl Eu Ev.
  assert (D : forall w, single_point (curve_of (Z.of_nat p) U P d) (Fin w : Exact) = Ok x -> 0 <= w <= 1).
  { intros w E; unfold single_point in E; destruct (validate_knot (Fin w : Exact)) eqn:V; [apply validate_fin in V; exact V|discriminate E]. }
  pose proof (D u Eu) as Hu; pose proof (D v Ev) as Hv.
  assert (W : forall s t, 0 <= s -> s <= t -> t <= 1 -> single_point (curve_of (Z.of_nat p) U P d) (Fin s : Exact) = Ok x -> single_point (curve_of (Z.of_nat p) U P d) (Fin t : Exact) = Ok x -> s = t).
  { intros s t Hs Hst Ht Es Et; destruct (single_point_rates p U P d c l L s t) as (a & b & Ea & Eb & _ & _ & B & _); try assumption.
    rewrite Es in Ea; rewrite Et in Eb; rewrite Eb in Ea; apply ok_inj, fin_inj in Ea; subst b; nra. }
  destruct (Rle_dec u v); [apply W; try assumption; lra|symmetry; apply W; try assumption; lra].
Qed.
Lemma single_point_convex p U P d c u v w : clamped (Z.of_nat p) (len P) U -> (2 <= p)%nat -> strict (Z.of_nat p) (len P) U ->
  kn U (Z.of_nat p) = 0 -> kn U (len P) = 1 -> wide_end (len P) U -> Forall (fun row => length row = 3%nat) P ->
  (c < 3)%nat -> convex_rates p U (coords c P) -> 0 <= u -> u <= v -> v <= w -> w <= 1 ->
  exists x y z, single_point (curve_of (Z.of_nat p) U P d) (Fin u : Exact) = Ok (fin x) /\ single_point (curve_of (Z.of_nat p) U P d) (Fin v : Exact) = Ok (fin y) /\
    single_point (curve_of (Z.of_nat p) U P d) (Fin w : Exact) = Ok (fin z) /\ length x = 3%nat /\ length y = 3%nat /\ length z = 3%nat /\
    (nth c y 0 - nth c x 0) * (w - v) <= (nth c z 0 - nth c y 0) * (v - u).
Proof.
  intros HC Hp HS H0 H1 HW HF Hc SL Hu Huv Hvw Hw; exists (curve_xyz U p P u), (curve_xyz U p P v), (curve_xyz U p P w).
  do 3 (split; [apply single_point_wide; try assumption; try lia; lra|]); do 3 (split; [reflexivity|]).
  rewrite !nth_xyz by exact Hc; apply (curve_convex p (len P)); try assumption; unfold coords, len; rewrite map_length; reflexivity.
Qed.
Lemma surf_point_rates p q nu nv U V P c l L u u' v : clamped (Z.of_nat p) (Z.of_nat nu) U -> (1 <= p)%nat -> strict (Z.of_nat p) (Z.of_nat nu) U ->
  kn U (Z.of_nat p) = 0 -> kn U (Z.of_nat nu) = 1 -> wide_end (Z.of_nat nu) U ->
  clamped (Z.of_nat q) (Z.of_nat nv) V -> (1 <= q)%nat -> strict (Z.of_nat q) (Z.of_nat nv) V -> kn V (Z.of_nat q) = 0 -> kn V (Z.of_nat nv) = 1 -> wide_end (Z.of_nat nv) V ->
  Forall (fun row => length row = 3%nat) P -> length P = (nu * nv)%nat -> (c < 3)%nat ->
  (forall j, (j < nv)%nat -> rates p U (coords c (net_col nu nv P j)) l L) -> 0 <= u -> u <= u' -> u' <= 1 -> 0 <= v <= 1 ->
  exists a b, surf_point (surf_of p q nu nv U V P) (Fin u : Exact) (Fin v : Exact) = Ok (fin a) /\ surf_point (surf_of p q nu nv U V P) (Fin u' : Exact) (Fin v : Exact) = Ok (fin b) /\
    length a = 3%nat /\ length b = 3%nat /\ l * (u' - u) <= nth c b 0 - nth c a 0 <= L * (u' - u).
Proof.
  intros CU Hp SU U0 U1 WU CV Hq SV V0 V1 WV HF HL Hc SA Hu Huu Hu' Hv; exists (surface_xyz U V p q nu nv P u v), (surface_xyz U V p q nu nv P u' v).
  split; [apply surf_point_wide; try assumption; lra|]; split; [apply surf_point_wide; try assumption; lra|]; split; [reflexivity|]; split; [reflexivity|].
  rewrite !nth_sxyz by exact Hc; apply surface_rates; rewrite ?U0, ?U1, ?V0, ?V1; try assumption; [apply strict_continuous; try assumption; lia|].
  intros j Hj; rewrite <- coords_col by assumption; apply SA; exact Hj.
Qed.
Lemma surf_point_rates_v p q nu nv U V P c l L u v v' : clamped (Z.of_nat p) (Z.of_nat nu) U -> (1 <= p)%nat -> strict (Z.of_nat p) (Z.of_nat nu) U ->
  kn U (Z.of_nat p) = 0 -> kn U (Z.of_nat nu) = 1 -> wide_end (Z.of_nat nu) U ->
  clamped (Z.of_nat q) (Z.of_nat nv) V -> (1 <= q)%nat -> strict (Z.of_nat q) (Z.of_nat nv) V -> kn V (Z.of_nat q) = 0 -> kn V (Z.of_nat nv) = 1 -> wide_end (Z.of_nat nv) V ->
  Forall (fun row => length row = 3%nat) P -> length P = (nu * nv)%nat -> (c < 3)%nat ->
  (forall i, (i < nu)%nat -> rates q V (coords c (net_row nv P i)) l L) -> 0 <= v -> v <= v' -> v' <= 1 -> 0 <= u <= 1 ->
  exists a b, surf_point (surf_of p q nu nv U V P) (Fin u : Exact) (Fin v : Exact) = Ok (fin a) /\ surf_point (surf_of p q nu nv U V P) (Fin u : Exact) (Fin v' : Exact) = Ok (fin b) /\
    length a = 3%nat /\ length b = 3%nat /\ l * (v' - v) <= nth c b 0 - nth c a 0 <= L * (v' - v).
Proof.
  intros CU Hp SU U0 U1 WU CV Hq SV V0 V1 WV HF HL Hc SA Hv Hvv Hv' Hu; exists (surface_xyz U V p q nu nv P u v), (surface_xyz U V p q nu nv P u v').
  split; [apply surf_point_wide; try assumption; lra|]; split; [apply surf_point_wide; try assumption; lra|]; split; [reflexivity|]; split; [reflexivity|].
  rewrite !nth_sxyz by exact Hc; apply surface_rates_v; rewrite ?U0, ?U1, ?V0, ?V1; try assumption; [apply strict_continuous; try assumption; lia|].
  intros i Hi; rewrite <- (coords_row c nu) by assumption; apply SA; exact Hi.
Qed.
