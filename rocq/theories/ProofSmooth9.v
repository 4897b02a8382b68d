(** Speed limits of surfaces, the first guess on a surface, and the results of
    ProofSmooth2/3 in terms of the evaluation methods. *)
From Coq Require Import Sorted.
From Verif Require Import Py PyLemmas Num ModelKnots ModelBasis ModelCurve ModelSurface ModelParam Spec SpecParam SpecSmooth
  MathCox MathKnots ProofNum ProofCurve ProofSurface ProofParam ProofParam3 ProofParam4 ProofParam6 ProofB64Insert ProofSmooth ProofSmooth2 ProofSmooth3 MathDeriv ProofDers ProofDers2 Examples.
Open Scope R_scope.

Lemma comb_slopes p U n m V q L v (f : nat -> nat -> R) : clamped (Z.of_nat q) (Z.of_nat m) V -> kn V (Z.of_nat q) <= v <= kn V (Z.of_nat m) ->
  (forall j, (j < m)%nat -> slopes p U (map (fun i => f i j) (seq 0 n)) L) ->
  slopes p U (map (fun i => curve_sum V q (map (fun j => f i j) (seq 0 m)) v) (seq 0 n)) L.
Proof.
  intros HC Hv H i; unfold len; rewrite map_length, seq_length; intros Hi.
  assert (E : forall a, (a < n)%nat -> nth a (map (fun i => curve_sum V q (map (fun j => f i j) (seq 0 m)) v) (seq 0 n)) 0 = zsum 0 m (fun j => bspline V q j v * f a (Z.to_nat j))).
  { intros a Ha; rewrite nth_map_seq0 by exact Ha; unfold curve_sum; rewrite map_length, seq_length; apply zsum_ext; intros j Hj; rewrite nth_map_seq0 by lia; reflexivity. }
  rewrite !E by lia; rewrite <- zsum_minus.
  apply Rle_trans with (INR p * zsum 0 m (fun j => bspline V q j v * Rabs (f (Z.to_nat i) (Z.to_nat j) - f (Z.to_nat (i - 1)) (Z.to_nat j)))).
  - apply Rmult_le_compat_l; [apply pos_INR|]; eapply Rle_trans; [apply zsum_Rabs|]; apply zsum_le; intros j Hj.
    rewrite <- Rmult_minus_distr_l, Rabs_mult, Rabs_right by (apply Rle_ge, bspline_nonneg, HC); lra.
  - rewrite <- zsum_scal; apply Rle_trans with (zsum 0 m (fun j => bspline V q j v * (L * (kn U (i + Z.of_nat p) - kn U i)))); [|rewrite zsum_scal_r, bspline_unity by assumption; lra].
    apply zsum_le; intros j Hj; pose proof (H (Z.to_nat j) ltac:(lia) i) as B; unfold len in B; rewrite map_length, seq_length in B; specialize (B Hi); rewrite !nth_map_seq0 in B by lia.
    pose proof (bspline_nonneg V q j v (proj2 (proj2 (proj2 (proj1 HC))))); nra.
Qed.
Lemma surface_cols U V p q nu nv c u v : surface_sum U V p q nu nv c u v
  = curve_sum V q (map (fun j => curve_sum U p (map (fun i => nth (i * nv + j) c 0) (seq 0 nu)) u) (seq 0 nv)) v.
Proof.
  unfold surface_sum, curve_sum at 1; rewrite zsum_swap, map_length, seq_length; apply zsum_ext; intros j Hj.
  rewrite nth_map_seq0 by lia; unfold curve_sum; rewrite map_length, seq_length, <- zsum_scal; apply zsum_ext; intros i Hi.
  rewrite nth_map_seq0 by lia; replace (Z.to_nat (i * Z.of_nat nv + j)) with (Z.to_nat i * nv + Z.to_nat j)%nat by nia; ring.
Qed.
Lemma coords_nth c P k : (k < length P)%nat -> nth k (coords c P) 0 = nth c (nth k P []) 0.
Proof. intros H; unfold coords; rewrite (nth_indep _ 0 (nth c [] 0)) by (rewrite map_length; exact H); exact (map_nth (fun r => nth c r 0) P [] k). Qed.
Lemma coords_col c nu nv P j : length P = (nu * nv)%nat -> (j < nv)%nat -> coords c (net_col nu nv P j) = map (fun i => nth (i * nv + j) (coords c P) 0) (seq 0 nu).
Proof.
  intros L Hj; unfold coords at 1, net_col; rewrite map_map; apply map_ext_in; intros i Hi; apply in_seq in Hi; rewrite coords_nth by nia; reflexivity.
Qed.
Lemma coords_row c nu nv P i : length P = (nu * nv)%nat -> (i < nu)%nat -> coords c (net_row nv P i) = map (fun j => nth (i * nv + j) (coords c P) 0) (seq 0 nv).
Proof.
  intros L Hj; unfold coords at 1, net_row; rewrite map_map; apply map_ext_in; intros j Hi; apply in_seq in Hi; rewrite coords_nth by nia; reflexivity.
Qed.
Lemma surface_lipschitz p q nu nv U V P A B u v u' v' : clamped (Z.of_nat p) (Z.of_nat nu) U -> (1 <= p)%nat -> continuous (Z.of_nat p) (Z.of_nat nu) U ->
  clamped (Z.of_nat q) (Z.of_nat nv) V -> (1 <= q)%nat -> continuous (Z.of_nat q) (Z.of_nat nv) V -> length P = (nu * nv)%nat ->
  (forall c j, (c < 3)%nat -> (j < nv)%nat -> slopes p U (coords c (net_col nu nv P j)) (A c)) ->
  (forall c i, (c < 3)%nat -> (i < nu)%nat -> slopes q V (coords c (net_row nv P i)) (B c)) ->
  kn U (Z.of_nat p) <= u <= kn U (Z.of_nat nu) -> kn U (Z.of_nat p) <= u' <= kn U (Z.of_nat nu) ->
  kn V (Z.of_nat q) <= v <= kn V (Z.of_nat nv) -> kn V (Z.of_nat q) <= v' <= kn V (Z.of_nat nv) ->
  distR (surface_xyz U V p q nu nv P u v) (surface_xyz U V p q nu nv P u' v') <=
  sqrt (A 0%nat * A 0%nat + A 1%nat * A 1%nat + A 2%nat * A 2%nat) * Rabs (u - u') + sqrt (B 0%nat * B 0%nat + B 1%nat * B 1%nat + B 2%nat * B 2%nat) * Rabs (v - v').
Proof.
  intros CU Hp DU CV Hq DV LP SA SB Hu Hu' Hv Hv'.
  assert (X : forall c, (c < 3)%nat -> Rabs (surface_sum U V p q nu nv (coords c P) u v - surface_sum U V p q nu nv (coords c P) u' v) <= A c * Rabs (u - u')).
  { intros c Hc; rewrite !surface_rows; apply (curve_lipschitz p (Z.of_nat nu)); try assumption; [rewrite map_length, seq_length; reflexivity|].
    apply (comb_slopes p U nu nv V q (A c) v (fun i j => nth (i * nv + j) (coords c P) 0)); try assumption; intros j Hj; rewrite <- coords_col by assumption; apply SA; assumption. }
  assert (Y : forall c, (c < 3)%nat -> Rabs (surface_sum U V p q nu nv (coords c P) u' v - surface_sum U V p q nu nv (coords c P) u' v') <= B c * Rabs (v - v')).
  { intros c Hc; rewrite !surface_cols; apply (curve_lipschitz q (Z.of_nat nv)); try assumption; [rewrite map_length, seq_length; reflexivity|].
    apply (comb_slopes q V nv nu U p (B c) u' (fun j i => nth (i * nv + j) (coords c P) 0)); try assumption; intros i Hi; rewrite <- (coords_row c nu) by assumption; apply SB; assumption. }
  eapply Rle_trans; [apply (dist3_triang _ (surface_xyz U V p q nu nv P u' v)); reflexivity|].
  apply Rplus_le_compat; apply dist3_bound; try reflexivity; try apply Rabs_pos; unfold surface_xyz; cbn [map nth]; first [apply X|apply Y]; lia.
Qed.

Lemma guess_near2 (b : surf_beh Exact) p q nu nv U V P Q A B : clamped (Z.of_nat p) (Z.of_nat nu) U -> (1 <= p)%nat -> strict (Z.of_nat p) (Z.of_nat nu) U ->
  kn U (Z.of_nat p) = 0 -> kn U (Z.of_nat nu) = 1 -> wide_end (Z.of_nat nu) U ->
  clamped (Z.of_nat q) (Z.of_nat nv) V -> (1 <= q)%nat -> strict (Z.of_nat q) (Z.of_nat nv) V -> kn V (Z.of_nat q) = 0 -> kn V (Z.of_nat nv) = 1 -> wide_end (Z.of_nat nv) V ->
  Forall (fun row => length row = 3%nat) P -> length P = (nu * nv)%nat -> length Q = 3%nat ->
  sb_nu b = Z.of_nat nu -> sb_nv b = Z.of_nat nv -> (forall u v, sb_point b u v = surf_point (surf_of p q nu nv U V P) u v) ->
  (forall c j, (c < 3)%nat -> (j < nv)%nat -> slopes p U (coords c (net_col nu nv P j)) (A c)) ->
  (forall c i, (c < 3)%nat -> (i < nu)%nat -> slopes q V (coords c (net_row nv P i)) (B c)) ->
  let gap := sqrt (A 0%nat * A 0%nat + A 1%nat * A 1%nat + A 2%nat * A 2%nat) / (2 * IZR (2 * Z.of_nat nu - 1)) + sqrt (B 0%nat * B 0%nat + B 1%nat * B 1%nat + B 2%nat * B 2%nat) / (2 * IZR (2 * Z.of_nat nv - 1)) in
  let S := surface_xyz U V p q nu nv P in
  exists g h, 0 <= g <= 1 /\ 0 <= h <= 1 /\ initial_guess_surf b (fin Q) = Ok (Fin g : Exact, Fin h : Exact) /\
    ((exists u v, 0 <= u <= 1 /\ 0 <= v <= 1 /\ distR Q (S u v) + gap < 1000000) ->
     forall u v, 0 <= u <= 1 -> 0 <= v <= 1 -> distR Q (S g h) <= distR Q (S u v) + gap).
Proof.
  intros CU Hp SU U0 U1 WU CV Hq SV V0 V1 WV HF HL HQ Bu Bv Hpt SA SB gap S.
  assert (DU : continuous (Z.of_nat p) (Z.of_nat nu) U) by (apply strict_continuous; [exact CU|lia|exact SU]).
  assert (DV : continuous (Z.of_nat q) (Z.of_nat nv) V) by (apply strict_continuous; [exact CV|lia|exact SV]).
  assert (Nu : (1 <= Z.of_nat nu)%Z) by (destruct CU as ((_ & H & _) & _); lia).
  assert (Nv : (1 <= Z.of_nat nv)%Z) by (destruct CV as ((_ & H & _) & _); lia).
  assert (Rg : forall n i, (1 <= n)%Z -> (0 <= i < 2 * n)%Z -> 0 <= IZR i / IZR (2 * n - 1) <= 1).
  { intros n i Hn Hi; assert (0 < IZR (2 * n - 1)) by (apply IZR_lt; lia); assert (0 <= IZR i <= IZR (2 * n - 1)) by (split; apply IZR_le; lia).
    split; [apply Rmult_le_pos; [lra|left; apply Rinv_0_lt_compat; lra]|apply Rmult_le_reg_r with (IZR (2 * n - 1)); [lra|]].
    unfold Rdiv; rewrite Rmult_assoc, Rinv_l by lra; lra. }
  destruct (initial_guess_surf_spec b Q (fun i j => S (IZR i / IZR (2 * Z.of_nat nu - 1)) (IZR j / IZR (2 * Z.of_nat nv - 1))) _ _ Bu Bv Nu Nv) as (k & l & Hk & Hl & E & M & _).
  { intros i j Hi Hj; split; [|rewrite HQ; reflexivity]; rewrite Hpt; apply surf_point_strict; try assumption; try (apply Rg; assumption);
      [apply (wide_close (Z.of_nat nu)); exact WU|apply (wide_close (Z.of_nat nv)); exact WV]. }
  exists (IZR k / IZR (2 * Z.of_nat nu - 1)), (IZR l / IZR (2 * Z.of_nat nv - 1)); split; [apply Rg; assumption|]; split; [apply Rg; assumption|]; split; [exact E|].
  assert (Nr : forall u v, 0 <= u <= 1 -> 0 <= v <= 1 -> exists i j, (0 <= i < 2 * Z.of_nat nu)%Z /\ (0 <= j < 2 * Z.of_nat nv)%Z /\
    distR Q (S (IZR i / IZR (2 * Z.of_nat nu - 1)) (IZR j / IZR (2 * Z.of_nat nv - 1))) <= distR Q (S u v) + gap).
  { intros u v Hu Hv; destruct (near_sample (2 * Z.of_nat nu - 1) u ltac:(lia) Hu) as (i & Hi & Bi); destruct (near_sample (2 * Z.of_nat nv - 1) v ltac:(lia) Hv) as (j & Hj & Bj).
    exists i, j; split; [lia|]; split; [lia|].
    eapply Rle_trans; [apply (dist3_triang Q (S u v)); [exact HQ|reflexivity|reflexivity]|]; apply Rplus_le_compat_l.
    eapply Rle_trans; [apply (surface_lipschitz p q nu nv U V P A B); try assumption; rewrite ?U0, ?U1, ?V0, ?V1; try assumption; apply Rg; lia|].
    unfold gap, Rdiv; apply Rplus_le_compat; apply Rmult_le_compat_l; try apply sqrt_pos; assumption. }
  intros (u0 & v0 & Hu0 & Hv0 & B0) u v Hu Hv; destruct M as [M _].
  - destruct (Nr u0 v0 Hu0 Hv0) as (i & j & Hi & Hj & Bi); exists i, j; split; [exact Hi|]; split; [exact Hj|lra].
  - destruct (Nr u v Hu Hv) as (i & j & Hi & Hj & Bi); eapply Rle_trans; [apply (M i j Hi Hj)|exact Bi].
Qed.

(** ** In terms of [single_point] and [surf_point] *)
Lemma single_point_wide p U P d u : clamped (Z.of_nat p) (len P) U -> (1 <= p)%nat -> strict (Z.of_nat p) (len P) U -> kn U (Z.of_nat p) = 0 -> kn U (len P) = 1 -> wide_end (len P) U ->
  Forall (fun row => length row = 3%nat) P -> 0 <= u <= 1 -> single_point (curve_of (Z.of_nat p) U P d) (Fin u : Exact) = Ok (fin (curve_xyz U p P u)).
Proof. intros; apply single_point_strict; try assumption; apply (wide_close (len P)); assumption. Qed.
Lemma surf_point_wide p q nu nv U V P u v : clamped (Z.of_nat p) (Z.of_nat nu) U -> (1 <= p)%nat -> strict (Z.of_nat p) (Z.of_nat nu) U ->
  kn U (Z.of_nat p) = 0 -> kn U (Z.of_nat nu) = 1 -> wide_end (Z.of_nat nu) U ->
  clamped (Z.of_nat q) (Z.of_nat nv) V -> (1 <= q)%nat -> strict (Z.of_nat q) (Z.of_nat nv) V -> kn V (Z.of_nat q) = 0 -> kn V (Z.of_nat nv) = 1 -> wide_end (Z.of_nat nv) V ->
  Forall (fun row => length row = 3%nat) P -> length P = (nu * nv)%nat -> 0 <= u <= 1 -> 0 <= v <= 1 ->
  surf_point (surf_of p q nu nv U V P) (Fin u : Exact) (Fin v : Exact) = Ok (fin (surface_xyz U V p q nu nv P u v)).
Proof. intros; apply surf_point_strict; try assumption; [apply (wide_close (Z.of_nat nu))|apply (wide_close (Z.of_nat nv))]; assumption. Qed.

Lemma single_point_lipschitz p U P d L u v : clamped (Z.of_nat p) (len P) U -> (1 <= p)%nat -> strict (Z.of_nat p) (len P) U ->
  kn U (Z.of_nat p) = 0 -> kn U (len P) = 1 -> wide_end (len P) U -> Forall (fun row => length row = 3%nat) P ->
  (forall c, (c < 3)%nat -> slopes p U (coords c P) (L c)) -> 0 <= u <= 1 -> 0 <= v <= 1 ->
  exists a b, single_point (curve_of (Z.of_nat p) U P d) (Fin u : Exact) = Ok (fin a) /\ single_point (curve_of (Z.of_nat p) U P d) (Fin v : Exact) = Ok (fin b) /\
    length a = 3%nat /\ length b = 3%nat /\ distR a b <= sqrt (L 0%nat * L 0%nat + L 1%nat * L 1%nat + L 2%nat * L 2%nat) * Rabs (u - v).
Proof.
  intros HC Hp HS H0 H1 HW HF SL Hu Hv; exists (curve_xyz U p P u), (curve_xyz U p P v).
  split; [apply single_point_wide; assumption|]; split; [apply single_point_wide; assumption|]; split; [reflexivity|]; split; [reflexivity|].
  apply point_lipschitz; rewrite ?H0, ?H1; try assumption; try (apply SL; lia); apply strict_continuous; [assumption|lia|assumption].
Qed.
Lemma surf_point_lipschitz p q nu nv U V P A B u v u' v' : clamped (Z.of_nat p) (Z.of_nat nu) U -> (1 <= p)%nat -> strict (Z.of_nat p) (Z.of_nat nu) U ->
  kn U (Z.of_nat p) = 0 -> kn U (Z.of_nat nu) = 1 -> wide_end (Z.of_nat nu) U ->
  clamped (Z.of_nat q) (Z.of_nat nv) V -> (1 <= q)%nat -> strict (Z.of_nat q) (Z.of_nat nv) V -> kn V (Z.of_nat q) = 0 -> kn V (Z.of_nat nv) = 1 -> wide_end (Z.of_nat nv) V ->
  Forall (fun row => length row = 3%nat) P -> length P = (nu * nv)%nat ->
  (forall c j, (c < 3)%nat -> (j < nv)%nat -> slopes p U (coords c (net_col nu nv P j)) (A c)) ->
  (forall c i, (c < 3)%nat -> (i < nu)%nat -> slopes q V (coords c (net_row nv P i)) (B c)) ->
  0 <= u <= 1 -> 0 <= v <= 1 -> 0 <= u' <= 1 -> 0 <= v' <= 1 ->
  exists a b, surf_point (surf_of p q nu nv U V P) (Fin u : Exact) (Fin v : Exact) = Ok (fin a) /\ surf_point (surf_of p q nu nv U V P) (Fin u' : Exact) (Fin v' : Exact) = Ok (fin b) /\
    length a = 3%nat /\ length b = 3%nat /\
    distR a b <= sqrt (A 0%nat * A 0%nat + A 1%nat * A 1%nat + A 2%nat * A 2%nat) * Rabs (u - u') + sqrt (B 0%nat * B 0%nat + B 1%nat * B 1%nat + B 2%nat * B 2%nat) * Rabs (v - v').
Proof.
  intros CU Hp SU U0 U1 WU CV Hq SV V0 V1 WV HF HL SA SB Hu Hv Hu' Hv'; exists (surface_xyz U V p q nu nv P u v), (surface_xyz U V p q nu nv P u' v').
  split; [apply surf_point_wide; assumption|]; split; [apply surf_point_wide; assumption|]; split; [reflexivity|]; split; [reflexivity|].
  apply surface_lipschitz; rewrite ?U0, ?U1, ?V0, ?V1; try assumption; apply strict_continuous; try assumption; lia.
Qed.
Lemma single_point_near p U P d Q L : clamped (Z.of_nat p) (len P) U -> (1 <= p)%nat -> strict (Z.of_nat p) (len P) U -> kn U (Z.of_nat p) = 0 -> kn U (len P) = 1 ->
  wide_end (len P) U -> Forall (fun row => length row = 3%nat) P -> length Q = 3%nat -> (forall c, (c < 3)%nat -> slopes p U (coords c P) (L c)) ->
  let c := curve_of (Z.of_nat p) U P d in
  let gap := sqrt (L 0%nat * L 0%nat + L 1%nat * L 1%nat + L 2%nat * L 2%nat) / (2 * IZR (2 * len P - 1)) in
  exists g x, 0 <= g <= 1 /\ initial_guess_curve (beh_of_curve3 c) (fin Q) = Ok (Fin g : Exact) /\ single_point c (Fin g : Exact) = Ok (fin x) /\
    forall u y, single_point c (Fin u : Exact) = Ok (fin y) -> distR Q y + gap < 1000000 -> distR Q x <= distR Q y + gap.
Proof.
  intros HC Hp HS H0 H1 HW HF HQ SL c gap.
  destruct (guess_near (beh_of_curve3 c) p U P d Q (L 0%nat) (L 1%nat) (L 2%nat)) as (g & Hg & E & M); try assumption; try (apply SL; lia); try reflexivity.
  { cbn [beh_of_curve3 cb_count c curve_of c_ctrl]; unfold zlen, fin2, len; rewrite map_length; reflexivity. }
  exists g, (curve_xyz U p P g); split; [exact Hg|]; split; [exact E|]; split; [apply single_point_wide; assumption|].
  intros u y Ey Hy; assert (Hu : 0 <= u <= 1).
  { unfold single_point in Ey; destruct (validate_knot (Fin u : Exact)) eqn:V; [apply validate_fin in V; exact V|discriminate Ey]. }
  unfold c in Ey; rewrite single_point_wide in Ey by assumption; apply ok_inj in Ey; apply fin_inj in Ey; subst y; apply M; [exists u; split; assumption|exact Hu].
Qed.
Lemma surf_point_near p q nu nv U V P Q A B : clamped (Z.of_nat p) (Z.of_nat nu) U -> (1 <= p)%nat -> strict (Z.of_nat p) (Z.of_nat nu) U ->
  kn U (Z.of_nat p) = 0 -> kn U (Z.of_nat nu) = 1 -> wide_end (Z.of_nat nu) U ->
  clamped (Z.of_nat q) (Z.of_nat nv) V -> (1 <= q)%nat -> strict (Z.of_nat q) (Z.of_nat nv) V -> kn V (Z.of_nat q) = 0 -> kn V (Z.of_nat nv) = 1 -> wide_end (Z.of_nat nv) V ->
  Forall (fun row => length row = 3%nat) P -> length P = (nu * nv)%nat -> length Q = 3%nat ->
  (forall c j, (c < 3)%nat -> (j < nv)%nat -> slopes p U (coords c (net_col nu nv P j)) (A c)) ->
  (forall c i, (c < 3)%nat -> (i < nu)%nat -> slopes q V (coords c (net_row nv P i)) (B c)) ->
  let s := surf_of p q nu nv U V P in
  let gap := sqrt (A 0%nat * A 0%nat + A 1%nat * A 1%nat + A 2%nat * A 2%nat) / (2 * IZR (2 * Z.of_nat nu - 1)) + sqrt (B 0%nat * B 0%nat + B 1%nat * B 1%nat + B 2%nat * B 2%nat) / (2 * IZR (2 * Z.of_nat nv - 1)) in
  exists g h x, 0 <= g <= 1 /\ 0 <= h <= 1 /\ initial_guess_surf (beh_of_surf s) (fin Q) = Ok (Fin g : Exact, Fin h : Exact) /\ surf_point s (Fin g : Exact) (Fin h : Exact) = Ok (fin x) /\
    forall u v y, surf_point s (Fin u : Exact) (Fin v : Exact) = Ok (fin y) -> distR Q y + gap < 1000000 -> distR Q x <= distR Q y + gap.
Proof.
  intros CU Hp SU U0 U1 WU CV Hq SV V0 V1 WV HF HL HQ SA SB s gap.
  destruct (guess_near2 (beh_of_surf s) p q nu nv U V P Q A B) as (g & h & Hg & Hh & E & M); try assumption; try reflexivity.
  exists g, h, (surface_xyz U V p q nu nv P g h); split; [exact Hg|]; split; [exact Hh|]; split; [exact E|]; split; [apply surf_point_wide; assumption|].
  intros u v y Ey Hy; assert (Huv : 0 <= u <= 1 /\ 0 <= v <= 1).
  { unfold surf_point in Ey; destruct (validate_knot (Fin u : Exact)) eqn:X; [|discriminate Ey]; destruct (validate_knot (Fin v : Exact)) eqn:Y; [|discriminate Ey].
    apply validate_fin in X; apply validate_fin in Y; split; assumption. }
  destruct Huv as [Hu Hv]; unfold s in Ey; rewrite surf_point_wide in Ey by assumption; apply ok_inj in Ey; apply fin_inj in Ey; subst y; apply M; [exists u, v; auto|exact Hu|exact Hv].
Qed.
(** Agreement of the evaluation methods at enough parameters. *)
Lemma single_point_unique p U P Q d d' : clamped (Z.of_nat p) (len P) U -> (1 <= p)%nat -> strict (Z.of_nat p) (len P) U -> kn U (Z.of_nat p) = 0 -> kn U (len P) = 1 -> wide_end (len P) U ->
  length Q = length P -> Forall (fun r => length r = 3%nat) P -> Forall (fun r => length r = 3%nat) Q ->
  plenty (S p) (Z.of_nat p) (len P) U (fun u => single_point (curve_of (Z.of_nat p) U P d) (Fin u : Exact) = single_point (curve_of (Z.of_nat p) U Q d') (Fin u : Exact)) -> P = Q.
Proof.
  intros HC Hp HS H0 H1 HW HL FP FQ HP; apply (curve_unique p U P Q); try assumption.
  intros s Hs; destruct (HP s Hs) as (xs & LX & SX & FX); exists xs; split; [exact LX|]; split; [exact SX|].
  eapply Forall_impl; [|exact FX]; intros u [Hu E]; split; [exact Hu|].
  assert (EL : len Q = len P) by (unfold len; rewrite HL; reflexivity).
  assert (R : 0 <= u <= 1).
  { rewrite <- H0, <- H1; pose proof (kn_mono U (proj2 (proj2 (proj2 (proj1 HC)))) (Z.of_nat p) s ltac:(lia)); pose proof (kn_mono U (proj2 (proj2 (proj2 (proj1 HC)))) (s + 1) (len P) ltac:(lia)); lra. }
  rewrite !single_point_wide in E by (rewrite ?EL; assumption); apply ok_inj in E; apply fin_inj in E; exact E.
Qed.
Lemma surf_point_unique p q nu nv U V P Q : clamped (Z.of_nat p) (Z.of_nat nu) U -> (1 <= p)%nat -> strict (Z.of_nat p) (Z.of_nat nu) U ->
  kn U (Z.of_nat p) = 0 -> kn U (Z.of_nat nu) = 1 -> wide_end (Z.of_nat nu) U ->
  clamped (Z.of_nat q) (Z.of_nat nv) V -> (1 <= q)%nat -> strict (Z.of_nat q) (Z.of_nat nv) V -> kn V (Z.of_nat q) = 0 -> kn V (Z.of_nat nv) = 1 -> wide_end (Z.of_nat nv) V ->
  length P = (nu * nv)%nat -> length Q = (nu * nv)%nat -> Forall (fun r => length r = 3%nat) P -> Forall (fun r => length r = 3%nat) Q ->
  plenty (S q) (Z.of_nat q) (Z.of_nat nv) V (fun v => plenty (S p) (Z.of_nat p) (Z.of_nat nu) U (fun u =>
    surf_point (surf_of p q nu nv U V P) (Fin u : Exact) (Fin v : Exact) = surf_point (surf_of p q nu nv U V Q) (Fin u : Exact) (Fin v : Exact))) -> P = Q.
Proof.
  intros CU Hp SU U0 U1 WU CV Hq SV V0 V1 WV LP LQ FP FQ HP; apply (surface_unique p q nu nv U V P Q); try assumption.
  intros t Ht; destruct (HP t Ht) as (ys & LY & SY & FY); exists ys; split; [exact LY|]; split; [exact SY|].
  eapply Forall_impl; [|exact FY]; intros v [Hv HX]; split; [exact Hv|].
  intros s Hs; destruct (HX s Hs) as (xs & LX & SX & FX); exists xs; split; [exact LX|]; split; [exact SX|].
  eapply Forall_impl; [|exact FX]; intros u [Hu E]; split; [exact Hu|].
  assert (Ru : 0 <= u <= 1).
  { rewrite <- U0, <- U1; pose proof (kn_mono U (proj2 (proj2 (proj2 (proj1 CU)))) (Z.of_nat p) s ltac:(lia)); pose proof (kn_mono U (proj2 (proj2 (proj2 (proj1 CU)))) (s + 1) (Z.of_nat nu) ltac:(lia)); lra. }
  assert (Rv : 0 <= v <= 1).
  { rewrite <- V0, <- V1; pose proof (kn_mono V (proj2 (proj2 (proj2 (proj1 CV)))) (Z.of_nat q) t ltac:(lia)); pose proof (kn_mono V (proj2 (proj2 (proj2 (proj1 CV)))) (t + 1) (Z.of_nat nv) ltac:(lia)); lra. }
  rewrite !surf_point_wide in E by assumption; apply ok_inj in E; apply fin_inj in E; exact E.
Qed.
(** At a simple knot the second derivatives of the quadratic functions jump. *)
Lemma next_order_jumps : let U := [0; 0; 0; 1/2; 1; 1; 1] in exists a b, (2 + 1 = 2 + 1)%nat /\ nondecreasing U /\ kn U 2 < 1/2 /\
  (forall j, (2 < j <= 2 + Z.of_nat 1)%Z -> kn U j = 1/2) /\ 1/2 < kn U (2 + Z.of_nat 1 + 1) /\
  basis_function_ders 2 (Fin (1/2) : Exact) (Z.of_nat 2) (fin U) (Z.of_nat 2) = Ok (fin2 a) /\
  basis_function_ders (2 + Z.of_nat 1) (Fin (1/2) : Exact) (Z.of_nat 2) (fin U) (Z.of_nat 2) = Ok (fin2 b) /\
  exists i, entry 2 a (i - (2 - Z.of_nat 2)) 2 <> entry 2 b (i - (2 + Z.of_nat 1 - Z.of_nat 2)) 2.
Proof.
  intros U; assert (HU : nondecreasing U) by (unfold U; solve_nondecreasing).
  exists (ders_table U 2 (1/2) 2 2), (ders_table U (2 + Z.of_nat 1) (1/2) 2 2).
  split; [reflexivity|]; split; [exact HU|]; split; [unfold U; kn_eval; lra|]; split; [intros j Hj; assert (j = 3)%Z as -> by lia; unfold U; kn_eval; lra|].
  split; [unfold U; kn_eval; lra|].
  split; [apply basis_function_ders_table; try assumption; try lia; try reflexivity; unfold U; kn_eval; lra|].
  split; [apply basis_function_ders_table; try assumption; try lia; try reflexivity; unfold U; kn_eval; lra|].
  exists 0%Z; rewrite table_entry by lia.
  assert (E : entry 2 (ders_table U (2 + Z.of_nat 1) (1 / 2) 2 2) (0 - (2 + Z.of_nat 1 - Z.of_nat 2)) 2 = 0) by reflexivity; rewrite E.
  cbn [Dx cox]; unfold sdiv, U; kn_eval; unfold delta; cbn; repeat destruct Req_EM_T; lra.
Qed.
