(** Least-squares fits commute with affine maps of space. *)
From Verif Require Import Py PyLemmas Num ModelKnots ModelBasis ModelCurve ModelSurface ModelInit ModelParam ModelFit Spec SpecParam SpecFit SpecSmooth MathCox MathKnots
  ProofNum ProofCurve ProofCurve2 ProofSurface ProofFit4 ProofFit5 ProofSmooth3 ProofSmooth5.
Open Scope R_scope.

Section Affine.
Context {A : Type}.
Variables (n : nat) (ev : A -> list R -> R) (tgt : A -> list R) (rows : list A) (fixed : nat -> Prop).
Definition lin2 (a : R) (x : list R) (b : R) (y : list R) : list R := map (fun k => a * nth k x 0 + b * nth k y 0) (seq 0 n).
Hypothesis ev_lin : forall r a x b y, In r rows -> length x = n -> length y = n -> ev r (lin2 a x b y) = a * ev r x + b * ev r y.
Hypothesis ev_one : forall r, In r rows -> ev r (repeat 1 n) = 1.
Let S (f : A -> R) : R := fold_right Rplus 0 (map f rows).
Definition val (P : list (list R)) (r : A) : list R := map (fun c => ev r (coords c P)) [0%nat; 1%nat; 2%nat].
Definition errs (P : list (list R)) (t : A -> list R) : R := S (fun r => point_err (val P r) (t r)).
Lemma S_add f g : S (fun r => f r + g r) = S f + S g.
Proof. unfold S; clear; induction rows as [|r l IH]; cbn [map fold_right]; [ring|]; rewrite IH; ring. Qed.
Lemma S_scal a f : S (fun r => a * f r) = a * S f.
Proof. unfold S; clear; induction rows as [|r l IH]; cbn [map fold_right]; [ring|]; rewrite IH; ring. Qed.
Lemma S_ext f g : (forall r, In r rows -> f r = g r) -> S f = S g.
Proof. intros H; unfold S; f_equal; apply map_ext_in; exact H. Qed.
Lemma S_sqr f : 0 <= S (fun r => f r * f r).
Proof. unfold S; clear; induction rows as [|r l IH]; cbn [map fold_right]; [lra|]; pose proof (Rle_0_sqr (f r)); unfold Rsqr in *; lra. Qed.
Lemma lin2_length a x b y : length (lin2 a x b y) = n. Proof. unfold lin2; rewrite map_length, seq_length; reflexivity. Qed.
Lemma lin2_nth a x b y k : (k < n)%nat -> nth k (lin2 a x b y) 0 = a * nth k x 0 + b * nth k y 0.
Proof. intros H; unfold lin2; apply (nth_map_seq0 (fun k => a * nth k x 0 + b * nth k y 0)); exact H. Qed.
Lemma coords_length c P : length (coords c P) = length P. Proof. unfold coords; apply map_length. Qed.
(** A minimiser has a residual orthogonal to every admissible direction. *)
Lemma minimal_orth P : length P = n -> Forall (fun r => length r = 3%nat) P ->
  (forall Z, length Z = n -> (forall k, (k < n)%nat -> fixed k -> nth k Z [] = nth k P []) -> errs P tgt <= errs Z tgt) ->
  forall c e, (c < 3)%nat -> length e = n -> (forall k, (k < n)%nat -> fixed k -> nth k e 0 = 0) ->
  S (fun r => (ev r (coords c P) - nth c (tgt r) 0) * ev r e) = 0.
Proof.
  intros LP FP Hmin c e Hc Le Hfix; set (B := S (fun r => ev r e * ev r e)); set (D := S (fun r => (ev r (coords c P) - nth c (tgt r) 0) * ev r e)).
  assert (HB : 0 <= B) by apply S_sqr.
  assert (G : forall t, 0 <= 2 * t * D + t * t * B).
  { intros t; set (w := fun d : nat => if (d =? c)%nat then t else 0).
    set (Z := map (fun k => map (fun d => 1 * nth k (coords d P) 0 + w d * nth k e 0) [0%nat; 1%nat; 2%nat]) (seq 0 n)).
    assert (LZ : length Z = n) by (unfold Z; rewrite map_length, seq_length; reflexivity).
    assert (CZ : forall d, (d < 3)%nat -> coords d Z = lin2 1 (coords d P) (w d) e).
    { intros d Hd; unfold Z, coords at 1, lin2; rewrite map_map; apply map_ext; intros k; rewrite nth_map3 by exact Hd; reflexivity. }
    assert (HZ : errs P tgt <= errs Z tgt).
    { apply Hmin; [exact LZ|]; intros k Hk Hf; apply row3_ext.
      - unfold Z; rewrite nth_map_seq0 by exact Hk; reflexivity.
      - apply (proj1 (Forall_forall _ _) FP), nth_In; lia.
      - intros d Hd; unfold Z; rewrite nth_map_seq0 by exact Hk; rewrite nth_map3, Hfix, nth_coords by assumption; ring. }
    assert (E : errs Z tgt = errs P tgt + (2 * t * D + t * t * B)); [|lra].
    unfold errs, D, B; rewrite <- !S_scal, <- !S_add; apply S_ext; intros r Hr; unfold val, point_err; cbn [map fold_right nth].
    rewrite !CZ, !ev_lin by (try lia; try assumption; rewrite coords_length; exact LP).
    destruct c as [|[|[|c]]]; try lia; unfold w; cbn [Nat.eqb]; ring. }
  specialize (G (- D / (B + 1))).
  assert (E : 2 * (- D / (B + 1)) * D + - D / (B + 1) * (- D / (B + 1)) * B = - (D * D) * ((B + 2) / ((B + 1) * (B + 1)))) by (field; lra).
  rewrite E in G; assert (HP : 0 < (B + 2) / ((B + 1) * (B + 1))) by (apply Rdiv_lt_0_compat; [lra|apply Rmult_lt_0_compat; lra]).
  assert (HDD : D * D <= 0).
  { destruct (Rle_lt_dec (D * D) 0) as [h|h]; [exact h|]; pose proof (Rmult_lt_0_compat _ _ h HP); lra. }
  pose proof (Rle_0_sqr D) as Q; unfold Rsqr in Q; assert (DD : D * D = 0) by lra; destruct (Rmult_integral _ _ DD); assumption.
Qed.
Lemma minimal_affine P M b tgt' : length P = n -> Forall (fun r => length r = 3%nat) P ->
  (forall Z, length Z = n -> (forall k, (k < n)%nat -> fixed k -> nth k Z [] = nth k P []) -> errs P tgt <= errs Z tgt) ->
  (forall r c, In r rows -> (c < 3)%nat -> nth c (tgt' r) 0 = nth c (affine M b (tgt r)) 0) ->
  forall Z, length Z = n -> (forall k, (k < n)%nat -> fixed k -> nth k Z [] = nth k (map (affine M b) P) []) -> errs (map (affine M b) P) tgt' <= errs Z tgt'.
Proof.
  intros LP FP Hmin HT Z LZ HZ.
  assert (EV : forall r c, In r rows -> (c < 3)%nat -> ev r (coords c (map (affine M b) P))
    = M c 0%nat * ev r (coords 0 P) + M c 1%nat * ev r (coords 1 P) + M c 2%nat * ev r (coords 2 P) + b c).
  { intros r c Hr Hc.
    assert (E : coords c (map (affine M b) P) = lin2 1 (lin2 (M c 0%nat) (coords 0 P) (M c 1%nat) (coords 1 P)) 1 (lin2 (M c 2%nat) (coords 2 P) (b c) (repeat 1 n))).
    { apply (nth_ext _ _ 0 0); [rewrite coords_length, map_length, lin2_length; exact LP|]; intros k Hk; rewrite coords_length, map_length, LP in Hk.
      rewrite !lin2_nth, moved_coord, nth_repeat_lt by (try assumption; lia); ring. }
    rewrite E, !ev_lin, ev_one by (rewrite ?lin2_length, ?coords_length, ?repeat_length; first [assumption|reflexivity]); ring. }
  set (e := fun c => lin2 1 (coords c Z) (-1) (coords c (map (affine M b) P))).
  assert (EE : forall r c, In r rows -> ev r (coords c Z) = ev r (coords c (map (affine M b) P)) + ev r (e c)).
  { intros r c Hr; unfold e; rewrite ev_lin by (rewrite ?coords_length, ?map_length; assumption); ring. }
  assert (O : forall i c, (i < 3)%nat -> (c < 3)%nat -> S (fun r => (ev r (coords i P) - nth i (tgt r) 0) * ev r (e c)) = 0).
  { intros i c Hi Hc; apply minimal_orth; try assumption; [apply lin2_length|]; intros k Hk Hf; unfold e; rewrite lin2_nth by exact Hk.
    rewrite !nth_coords, HZ by assumption; ring. }
  set (h := fun c => S (fun r => ev r (e c) * ev r (e c))); assert (Hh : forall c, 0 <= h c) by (intros; apply S_sqr).
  assert (E : errs Z tgt' = errs (map (affine M b) P) tgt' + (h 0%nat + (h 1%nat + h 2%nat))
    + 2 * ((M 0%nat 0%nat * 0 + M 0%nat 1%nat * 0 + M 0%nat 2%nat * 0) + (M 1%nat 0%nat * 0 + M 1%nat 1%nat * 0 + M 1%nat 2%nat * 0) + (M 2%nat 0%nat * 0 + M 2%nat 1%nat * 0 + M 2%nat 2%nat * 0))).
  { rewrite <- (O 0 0)%nat at 1 by lia; rewrite <- (O 1 0)%nat at 1 by lia; rewrite <- (O 2 0)%nat at 1 by lia.
    rewrite <- (O 0 1)%nat at 1 by lia; rewrite <- (O 1 1)%nat at 1 by lia; rewrite <- (O 2 1)%nat at 1 by lia.
    rewrite <- (O 0 2)%nat at 1 by lia; rewrite <- (O 1 2)%nat at 1 by lia; rewrite <- (O 2 2)%nat at 1 by lia.
    unfold errs, h; rewrite <- !S_scal, <- !S_add, <- !S_scal, <- !S_add; apply S_ext; intros r Hr; unfold val, point_err; cbn [map fold_right nth].
    rewrite !EE, !EV, !(HT r) by (try assumption; lia); unfold affine; cbn [map nth]; ring. }
  rewrite E; pose proof (Hh 0%nat); pose proof (Hh 1%nat); pose proof (Hh 2%nat); lra.
Qed.
End Affine.

(** ** Moved data *)
Lemma moved_coordinate M b r c : (c < 3)%nat -> nth c (moved M b r) 0 = nth c (affine M b r) 0.
Proof. intros H; unfold moved; rewrite app_nth1; [reflexivity|rewrite affine_length; exact H]. Qed.
Lemma moved_param M b r k : nth (3 + k) (moved M b r) 0 = nth (3 + k) r 0.
Proof.
  unfold moved; rewrite app_nth2 by (rewrite affine_length; lia); rewrite affine_length; replace (3 + k - 3)%nat with k by lia.
  destruct r as [|x [|y [|z r]]]; cbn [skipn Nat.add nth]; try (destruct k; reflexivity); reflexivity.
Qed.
Lemma moved_length M b r : (3 <= length r)%nat -> length (moved M b r) = length r.
Proof. intros H; unfold moved; rewrite app_length, affine_length, skipn_length; lia. Qed.
Lemma curve_err_moved U p P rows M b : curve_err U p P (map (moved M b) rows) = errs (fun r x => curve_sum U p x (nth 3 r 0)) rows P (moved M b).
Proof.
  unfold curve_err, errs; f_equal; rewrite map_map; apply map_ext; intros r; f_equal; unfold curve_xyz, val; apply map_ext; intros c.
  rewrite (moved_param M b r 0 : nth 3 (moved M b r) 0 = nth 3 r 0); reflexivity.
Qed.
Lemma surface_err_moved U V p q nu nv P rows M b : surface_err U V p q nu nv P (map (moved M b) rows)
  = errs (fun r x => surface_sum U V p q nu nv x (nth 3 r 0) (nth 4 r 0)) rows P (moved M b).
Proof.
  unfold surface_err, errs; f_equal; rewrite map_map; apply map_ext; intros r; f_equal; unfold surface_xyz, val; apply map_ext; intros c.
  rewrite (moved_param M b r 0 : nth 3 (moved M b r) 0 = nth 3 r 0), (moved_param M b r 1 : nth 4 (moved M b r) 0 = nth 4 r 0); reflexivity.
Qed.
Lemma curve_minimal_affine U p P rows M b : clamped (Z.of_nat p) (len P) U -> Forall (fun r => length r = 3%nat) P ->
  Forall (fun r => kn U (Z.of_nat p) <= nth 3 r 0 <= kn U (len P)) rows ->
  (forall Z, length Z = length P -> nth 0 Z [] = nth 0 P [] -> last Z [] = last P [] -> curve_err U p P rows <= curve_err U p Z rows) ->
  forall Z, length Z = length P -> nth 0 Z [] = nth 0 (map (affine M b) P) [] -> last Z [] = last (map (affine M b) P) [] ->
    curve_err U p (map (affine M b) P) (map (moved M b) rows) <= curve_err U p Z (map (moved M b) rows).
Proof.
  intros HC FP FR Hmin Z LZ Z0 ZL; rewrite !curve_err_moved; rewrite Forall_forall in FR.
  assert (HP : (0 < length P)%nat) by (destruct HC as ((? & ? & _) & _); unfold len in *; lia).
  apply (minimal_affine (length P) (fun r x => curve_sum U p x (nth 3 r 0)) (fun r => r) rows (fun k => k = 0%nat \/ k = (length P - 1)%nat)); try assumption; try reflexivity.
  - intros r a x c y Hr Lx Ly; unfold curve_sum; rewrite lin2_length, Lx, Ly, <- !zsum_scal, <- zsum_plus; apply zsum_ext; intros i Hi; rewrite lin2_nth by lia; ring.
  - intros r Hr; unfold curve_sum; rewrite repeat_length; transitivity (zsum 0 (length P) (fun i => bspline U p i (nth 3 r 0))); [|exact (bspline_unity p (length P) U (nth 3 r 0) HC (FR r Hr))]; apply zsum_ext; intros i Hi; rewrite nth_repeat_lt by lia; ring.
  - intros Y LY HY; apply Hmin; [exact LY|apply HY; [exact HP|left; reflexivity]|]; rewrite !last_nth, LY; apply HY; [lia|right; reflexivity].
  - intros r c _ Hc; apply moved_coordinate; exact Hc.
  - intros k Hk [->| ->]; [exact Z0|]; rewrite !last_nth, map_length, LZ in ZL; exact ZL.
Qed.
Lemma surface_minimal_affine U V p q nu nv P rows M b (fixed : nat -> Prop) : clamped (Z.of_nat p) (Z.of_nat nu) U -> clamped (Z.of_nat q) (Z.of_nat nv) V ->
  length P = (nu * nv)%nat -> Forall (fun r => length r = 3%nat) P ->
  Forall (fun r => kn U (Z.of_nat p) <= nth 3 r 0 <= kn U (Z.of_nat nu) /\ kn V (Z.of_nat q) <= nth 4 r 0 <= kn V (Z.of_nat nv)) rows ->
  (forall Z, length Z = length P -> (forall k, (k < nu * nv)%nat -> fixed k -> nth k Z [] = nth k P []) -> surface_err U V p q nu nv P rows <= surface_err U V p q nu nv Z rows) ->
  forall Z, length Z = length P -> (forall k, (k < nu * nv)%nat -> fixed k -> nth k Z [] = nth k (map (affine M b) P) []) ->
    surface_err U V p q nu nv (map (affine M b) P) (map (moved M b) rows) <= surface_err U V p q nu nv Z (map (moved M b) rows).
Proof.
  intros CU CV LP FP FR Hmin Z LZ HZ; rewrite !surface_err_moved; rewrite Forall_forall in FR.
  apply (minimal_affine (nu * nv) (fun r x => surface_sum U V p q nu nv x (nth 3 r 0) (nth 4 r 0)) (fun r => r) rows fixed); try assumption; try congruence.
  - intros r a x c y Hr Lx Ly; unfold surface_sum; rewrite <- !zsum_scal, <- zsum_plus; apply zsum_ext; intros i Hi.
    rewrite <- !zsum_scal, <- zsum_plus; apply zsum_ext; intros j Hj; rewrite lin2_nth by nia; ring.
  - intros r Hr; destruct (FR r Hr) as [Hu Hv]; unfold surface_sum.
    rewrite (zsum_ext _ _ _ (fun i => bspline U p i (nth 3 r 0) * 1)).
    + rewrite zsum_scal_r, (bspline_unity p nu U (nth 3 r 0) CU Hu); ring.
    + intros i Hi; transitivity (zsum 0 nv (fun j => bspline U p i (nth 3 r 0) * bspline V q j (nth 4 r 0))); [apply zsum_ext; intros j Hj; rewrite nth_repeat_lt by nia; ring|rewrite zsum_scal, (bspline_unity q nv V (nth 4 r 0) CV Hv); reflexivity].
  - intros Y LY HY; apply Hmin; [congruence|exact HY].
  - intros r c _ Hc; apply moved_coordinate; exact Hc.
Qed.
Lemma moved_rows_in M b rows (B : R -> Prop) : (exists r, In r rows /\ B (nth 3 r 0)) -> exists r, In r (map (moved M b) rows) /\ B (nth 3 r 0).
Proof.
  intros (r & Hr & E); exists (moved M b r); split; [apply in_map; exact Hr|rewrite (moved_param M b r 0 : nth 3 (moved M b r) 0 = nth 3 r 0); exact E].
Qed.
Lemma single_fit_curve_affine sv sv' c c' p U P rows M b : least_squares sv -> least_squares sv' -> clamped (Z.of_nat p) (len P) U -> strict (Z.of_nat p) (len P) U -> (1 <= p)%nat ->
  c_degree c = Some (Z.of_nat p) -> c_ctrl c = Some (fin2 P) -> c_kv c = Some (fin U) -> Forall (fun r => length r = 3%nat) P ->
  c_degree c' = c_degree c -> c_ctrl c' = Some (fin2 (map (affine M b) P)) -> c_kv c' = c_kv c ->
  Forall (fun r => length r = 4%nat /\ kn U (Z.of_nat p) <= nth 3 r 0 <= kn U (len P)) rows ->
  plenty (S p) (Z.of_nat p) (len P) U (fun u => exists r, In r rows /\ nth 3 r 0 = u) ->
  exists P', single_fit_curve store_ctrl sv c (fin2 rows) = Ok (mkCurve (c_degree c) (Some (fin2 P')) (c_kv c) (c_dim c)) /\
    single_fit_curve store_ctrl sv' c' (fin2 (map (moved M b) rows)) = Ok (mkCurve (c_degree c') (Some (fin2 (map (affine M b) P'))) (c_kv c') (c_dim c')).
Proof.
  intros H1 H2 HC HS Hp E1 E2 E3 FP K1 K2 K3 FR HPl.
  assert (Hpn : (Z.of_nat p + 1 <= len P)%Z) by apply HC.
  assert (LE : len (map (affine M b) P) = len P) by (unfold len; rewrite map_length; reflexivity).
  destruct (single_fit_curve_exact sv c p U P rows H1 (strict_tight _ _ _ HC HS Hpn) E1 E2 E3 FP FR) as (P' & EF & LP' & FP' & P0 & PL & Hmin).
  destruct (single_fit_curve_exact sv' c' p U (map (affine M b) P) (map (moved M b) rows) H2 ltac:(rewrite LE; apply (strict_tight _ _ _ HC HS Hpn)) ltac:(congruence) K2 ltac:(congruence) (Forall_moved M b P))
    as (Q & EQ & LQ & FQ & Q0 & QL & Qmin).
  { rewrite LE; apply Forall_forall; intros r Hr; apply in_map_iff in Hr; destruct Hr as (x & <- & Hx); rewrite Forall_forall in FR; destruct (FR x Hx) as [L4 HR].
    split; [rewrite moved_length; lia|rewrite (moved_param M b x 0 : nth 3 (moved M b x) 0 = nth 3 x 0); exact HR]. }
  exists P'; split; [exact EF|].
  assert (LE' : len P' = len P) by (unfold len; rewrite LP'; reflexivity); assert (LEQ : len Q = len P) by (unfold len; rewrite LQ, map_length; reflexivity).
  rewrite map_length in LQ.
  assert (HP : (0 < length P)%nat) by (unfold len in *; lia).
  assert (A0 : nth 0 (map (affine M b) P') [] = nth 0 (map (affine M b) P) []) by (rewrite !(nth_indep _ [] (affine M b [])), !map_nth, P0 by (rewrite map_length; lia); reflexivity).
  assert (AL : last (map (affine M b) P') [] = last (map (affine M b) P) []).
  { rewrite !last_nth, !map_length, LP', !(nth_indep _ [] (affine M b [])), !map_nth by (rewrite map_length; lia); rewrite !last_nth, LP' in PL; rewrite PL; reflexivity. }
  rewrite EQ; do 2 f_equal; do 2 f_equal.
  apply (curve_fit_unique p U Q (map (affine M b) P') (map (moved M b) rows) (nth 0 (map (affine M b) P) []) (last (map (affine M b) P) [])); try assumption; try (rewrite LEQ; assumption).
  - rewrite map_length; congruence.
  - apply Forall_moved.
  - intros Y LY Y0 YL; apply Qmin; [rewrite map_length; congruence|assumption|assumption].
  - apply curve_minimal_affine; try assumption; [rewrite LE'; exact HC| |intros Y LY Y0 YL; apply Hmin; congruence|congruence|congruence|congruence].
    eapply Forall_impl; [|exact FR]; intros r [_ HR]; rewrite LE'; exact HR.
  - rewrite LEQ; intros s Hs; destruct (HPl s Hs) as (xs & LX & SX & FX); exists xs; split; [exact LX|]; split; [exact SX|].
    eapply Forall_impl; [|exact FX]; intros u [Hu HR]; split; [exact Hu|]; exact (moved_rows_in M b rows (fun x => x = u) HR).
Qed.
Lemma single_fit_surface_affine sv sv' p q nu nv U V P rows M b : least_squares sv -> least_squares sv' ->
  clamped (Z.of_nat p) (Z.of_nat nu) U -> strict (Z.of_nat p) (Z.of_nat nu) U -> (1 <= p)%nat -> clamped (Z.of_nat q) (Z.of_nat nv) V -> strict (Z.of_nat q) (Z.of_nat nv) V -> (1 <= q)%nat ->
  length P = (nu * nv)%nat -> Forall (fun r => length r = 3%nat) P ->
  Forall (fun r => length r = 5%nat /\ kn U (Z.of_nat p) <= nth 3 r 0 <= kn U (Z.of_nat nu) /\ kn V (Z.of_nat q) <= nth 4 r 0 <= kn V (Z.of_nat nv)) rows ->
  plenty (S q) (Z.of_nat q) (Z.of_nat nv) V (fun v => plenty (S p) (Z.of_nat p) (Z.of_nat nu) U (fun u => exists r, In r rows /\ nth 3 r 0 = u /\ nth 4 r 0 = v)) ->
  let s P := mkSurf (K := Exact) (Z.of_nat p) (Z.of_nat q) (Z.of_nat nu) (Z.of_nat nv) (fin2 P) (fin U) (fin V) in
  exists P', single_fit_surface sv (s P) (fin2 rows) = Ok (s P') /\
    single_fit_surface sv' (s (map (affine M b) P)) (fin2 (map (moved M b) rows)) = Ok (s (map (affine M b) P')).
Proof.
  intros H1 H2 CU SU Hp CV SV Hq LP FP FR HPl s; unfold s.
  assert (TU : tight (Z.of_nat p) (Z.of_nat nu) U) by (apply strict_tight; [exact CU|exact SU|apply CU]).
  assert (TV : tight (Z.of_nat q) (Z.of_nat nv) V) by (apply strict_tight; [exact CV|exact SV|apply CV]).
  destruct (single_fit_surface_exact sv p q nu nv U V P rows H1 TU TV LP FP FR) as (P' & EF & LP' & FP' & PB & Hmin).
  destruct (single_fit_surface_exact sv' p q nu nv U V (map (affine M b) P) (map (moved M b) rows) H2 TU TV ltac:(rewrite map_length; exact LP) (Forall_moved M b P)) as (Q & EQ & LQ & FQ & QB & Qmin).
  { apply Forall_forall; intros r Hr; apply in_map_iff in Hr; destruct Hr as (x & <- & Hx); rewrite Forall_forall in FR; destruct (FR x Hx) as [L4 HR].
    split; [rewrite moved_length; lia|rewrite (moved_param M b x 0 : nth 3 (moved M b x) 0 = nth 3 x 0), (moved_param M b x 1 : nth 4 (moved M b x) 0 = nth 4 x 0); exact HR]. }
  rewrite map_length in LQ; exists P'; split; [exact EF|].
  rewrite EQ; do 2 f_equal; do 2 f_equal.
  assert (RB : forall k, (k < nu * nv)%nat -> rim nu nv k = true -> nth k (map (affine M b) P') [] = nth k (map (affine M b) P) []).
  { intros k Hk Hr; rewrite !(nth_indep _ [] (affine M b [])), !map_nth by (rewrite map_length; lia); f_equal; revert k Hk Hr; apply rim_iff; exact PB. }
  apply (surface_fit_unique p q nu nv U V Q (map (affine M b) P') (map (moved M b) rows) (rim nu nv) (fun k => nth k (map (affine M b) P) [])); try assumption; try congruence.
  - rewrite map_length; congruence.
  - apply Forall_moved.
  - apply rim_iff; exact QB.
  - intros Y LY YB; apply Qmin; [rewrite map_length; congruence|apply rim_iff; exact YB].
  - apply (surface_minimal_affine U V p q nu nv P' rows M b (fun k => rim nu nv k = true)); try assumption; try congruence.
    + eapply Forall_impl; [|exact FR]; intros r [_ HR]; exact HR.
    + intros Y LY YB; apply Hmin; [congruence|]; apply rim_iff; intros k Hk Hr; rewrite (YB k Hk Hr); revert k Hk Hr; apply rim_iff; exact PB.
    + intros k Hk Hr; rewrite (RB k Hk Hr); revert k Hk Hr; apply rim_iff; exact QB.
  - intros t Ht; destruct (HPl t Ht) as (ys & LY & SY & FY); exists ys; split; [exact LY|]; split; [exact SY|].
    eapply Forall_impl; [|exact FY]; intros v [Hv HX]; split; [exact Hv|].
    intros w Hw; destruct (HX w Hw) as (xs & LX & SX & FX); exists xs; split; [exact LX|]; split; [exact SX|].
    eapply Forall_impl; [|exact FX]; intros u [Hu (r & Hr & Ea & Eb)]; split; [exact Hu|]; exists (moved M b r); split; [apply in_map; exact Hr|].
    rewrite (moved_param M b r 0 : nth 3 (moved M b r) 0 = nth 3 r 0), (moved_param M b r 1 : nth 4 (moved M b r) 0 = nth 4 r 0); auto.
Qed.
