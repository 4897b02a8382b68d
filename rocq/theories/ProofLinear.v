(** Straight lines as curves: linear precision, and the projection on the
    initial segment (models: ModelCurve.v, ModelParam.v), in exact arithmetic. *)
From Verif Require Import Py PyLemmas Num ModelKnots ModelBasis ModelCurve ModelSurface ModelParam Spec SpecParam MathCox MathKnots MathDeriv MathLinear
  ProofNum ProofSpan ProofBasis ProofSpan2 ProofKnots ProofInsert2 ProofDers ProofDers2 ProofCurve ProofCurve2 ProofSurface ProofSurface2 ProofInit
  ProofParam ProofParam2 ProofParam3 ProofParam4 ProofFit7 ProofParam5 ProofParam6.
Open Scope R_scope.

(** Control values affine in the averaged knots. *)
Lemma piece_linear U s p c A D u : nondecreasing U -> kn U s < kn U (s + 1) -> (Z.of_nat p <= s < len c)%Z -> (1 <= p)%nat ->
  (forall i, (0 <= i < len c)%Z -> nth (Z.to_nat i) c 0 = A + knot_sum (kn U) p i / INR p * D) ->
  curve_piece U s p c u = A + u * D.
Proof.
  intros HU Hlt Hs Hp HC; pose proof (curve_ders_window U s p 0 c u Hs) as W.
  change (curve_ders U s p 0 c u) with (curve_piece U s p c u) in W; rewrite <- W; clear W.
  cbn [Dx].
  pose proof (zsum_shift 0 (s - Z.of_nat p) (S p) (fun i => cox (delta s) (kn U) p i u * nth (Z.to_nat i) c 0)) as E.
  rewrite Z.add_0_l in E.
  transitivity (zsum (s - Z.of_nat p) (S p) (fun i => cox (delta s) (kn U) p i u * nth (Z.to_nat i) c 0)).
  { rewrite E; apply zsum_ext; intros i _; f_equal; [f_equal|do 2 f_equal]; lia. }
  assert (HM : forall i j, (s - Z.of_nat p + 1 <= i <= j)%Z -> (j <= s + Z.of_nat p)%Z -> kn U i <= kn U j) by (intros; apply kn_mono; [exact HU|lia]).
  assert (P0 : INR p <> 0) by (apply not_0_INR; lia).
  transitivity (zsum (s - Z.of_nat p) (S p) (fun i => cox (delta s) (kn U) p i u * A + cox (delta s) (kn U) p i u * knot_sum (kn U) p i * (D / INR p))).
  { apply zsum_ext; intros i Hi; rewrite HC by lia; field; exact P0. }
  rewrite zsum_plus, !zsum_scal_r, (cox_unity (kn U) s p Hlt HM u p), (cox_linear (kn U) s p Hlt HM u p) by lia; field; exact P0.
Qed.
Lemma nd_line_1 f A D G : (forall x, f x = A + x * D) -> nth_derivative 1 f G -> forall x, G x = D.
Proof.
  intros Hf (h & Hh & HG) x; cbn [nth_derivative] in Hh; eapply uniqueness_limite; [apply HG|].
  apply (derivable_pt_lim_ext (fun y => A + y * D)); [intros t; rewrite Hh; symmetry; apply Hf|].
  pose proof (derivable_pt_lim_plus (fun _ => A) (fun y => y * D) x _ _ (derivable_pt_lim_const A x)
    (derivable_pt_lim_mult (fun y => y) (fun _ => D) x _ _ (derivable_pt_lim_id x) (derivable_pt_lim_const D x))) as H.
  unfold fct_cte in H; replace (0 + (1 * D + x * 0)) with D in H by ring; exact H.
Qed.
Lemma nd_line_2 f A D G : (forall x, f x = A + x * D) -> nth_derivative 2 f G -> forall x, G x = 0.
Proof.
  intros Hf (h & Hh & HG) x; pose proof (nd_line_1 f A D h Hf Hh) as E; eapply uniqueness_limite; [apply HG|].
  apply (derivable_pt_lim_ext (fun _ => D)); [intros t; symmetry; apply E|apply derivable_pt_lim_const].
Qed.
Lemma line_rows p U P A D u : clamped (Z.of_nat p) (len P) U -> strict (Z.of_nat p) (len P) U ->
  kn U (Z.of_nat p) = 0 -> kn U (len P) = 1 -> (1 <= p)%nat -> 0 <= u <= 1 -> length A = 3%nat -> length D = 3%nat ->
  (forall i c, (0 <= i < len P)%Z -> (c < 3)%nat -> nth c (nth (Z.to_nat i) P []) 0 = nth c A 0 + knot_sum (kn U) p i / INR p * nth c D 0) ->
  curve_row p U P 0 u = map (fun c => nth c A 0 + u * nth c D 0) [0%nat; 1%nat; 2%nat] /\
  curve_row p U P 1 u = D /\ curve_row p U P 2 u = [0; 0; 0].
Proof.
  intros HC HS H0 H1 Hp Hu LA LD HP; destruct (span_of_ok _ _ U u HC HS H0 H1 Hu) as (_ & Hs & Hlt).
  pose proof (proj2 (proj2 (proj2 (proj1 HC)))) as HU.
  assert (L : forall c x, (c < 3)%nat -> curve_piece U (span_of (len P) (Z.of_nat p) U u) p (coords c P) x = nth c A 0 + x * nth c D 0).
  { intros c x Hc; apply piece_linear; try assumption; [unfold len, coords in *; rewrite map_length; exact Hs|].
    intros i Hi; unfold coords in *; unfold len in Hi; rewrite map_length in Hi.
    rewrite <- (HP i c) by (try exact Hc; unfold len; lia).
    rewrite (nth_indep _ 0 ((fun r => nth c r 0) [])) by (rewrite map_length; lia).
    apply (map_nth (fun r => nth c r 0)). }
  unfold curve_row, ders_row.
  assert (T : forall (f g : nat -> R), (forall c, (c < 3)%nat -> f c = g c) -> map f [0%nat; 1%nat; 2%nat] = map g [0%nat; 1%nat; 2%nat]).
  { intros f g H; cbn [map]; rewrite !H by lia; reflexivity. }
  split; [|split].
  - apply T; intros c Hc; apply (L c u Hc).
  - destruct D as [|D0 [|D1 [|D2 [|]]]]; try discriminate LD.
    transitivity (map (fun c => nth c [D0; D1; D2] 0) [0%nat; 1%nat; 2%nat]); [|reflexivity]; apply T; intros c Hc.
    apply (nd_line_1 _ _ _ _ (fun x => L c x Hc)); apply (curve_ders_true U _ p 1); exact HU.
  - transitivity (map (fun _ : nat => 0) [0%nat; 1%nat; 2%nat]); [|reflexivity]; apply T; intros c Hc.
    apply (nd_line_2 _ _ _ _ (fun x => L c x Hc)); apply (curve_ders_true U _ p 2); exact HU.
Qed.

(** ** The initial segment *)
Lemma step_sum q a m : (a <= q + 1)%Z ->
  zsum a m (fun j => if (j <=? q)%Z then 0 else 1) = IZR (Z.max 0 (a + Z.of_nat m - 1 - q)).
Proof.
  intros Ha; induction m as [|m IH]; cbn [zsum].
  - rewrite Z.max_l by lia; reflexivity.
  - rewrite IH; destruct (Z.leb_spec (a + Z.of_nat m) q).
    + rewrite !Z.max_l by lia; ring.
    + replace 1 with (IZR 1) at 2 by reflexivity; rewrite <- plus_IZR; f_equal; lia.
Qed.
Lemma bezier_knot_sum p i : (0 <= i <= Z.of_nat p)%Z -> knot_sum (kn (uniform (Z.of_nat p) (Z.of_nat p + 1))) p i = IZR i.
Proof.
  intros Hi; unfold knot_sum.
  rewrite (zsum_ext _ _ _ (fun j => if (j <=? Z.of_nat p)%Z then 0 else 1)).
  - rewrite step_sum by lia; f_equal; lia.
  - intros j Hj; unfold uniform; rewrite kn_tab by lia.
    destruct (Z.leb_spec j (Z.of_nat p)); [reflexivity|]; destruct (Z.leb_spec (Z.of_nat p + 1) j); [reflexivity|lia].
Qed.
Lemma bezier_knots p : (1 <= p)%nat -> forall n, n = (Z.of_nat p + 1)%Z -> let U := uniform (Z.of_nat p) n in
  clamped (Z.of_nat p) n U /\ strict (Z.of_nat p) n U /\ kn U (Z.of_nat p) = 0 /\ kn U n = 1.
Proof.
  intros Hp n ->; cbv zeta; split; [apply uniform_clamped; lia|]; split; [apply uniform_strict; lia|].
  unfold uniform; rewrite !kn_tab by lia; destruct (Z.leb_spec (Z.of_nat p) (Z.of_nat p)); [|lia].
  destruct (Z.leb_spec (Z.of_nat p + 1) (Z.of_nat p)); [lia|]; destruct (Z.leb_spec (Z.of_nat p + 1) (Z.of_nat p + 1)); [|lia]; auto.
Qed.
Lemma segment_rows p a e u : (1 <= p)%nat -> length a = 3%nat -> length e = 3%nat -> 0 <= u <= 1 ->
  let U := uniform (Z.of_nat p) (Z.of_nat p + 1) in let P := segment a e (Z.of_nat p + 1) in
  curve_row p U P 0 u = lerp a e u /\ curve_row p U P 1 u = subR e a /\ curve_row p U P 2 u = [0; 0; 0].
Proof.
  intros Hp La Le Hu; cbv zeta.
  assert (LP : len (segment a e (Z.of_nat p + 1)) = (Z.of_nat p + 1)%Z) by (apply segment_len; lia).
  destruct (bezier_knots p Hp _ LP) as (HC & HS & H0 & H1); rewrite LP in *.
  destruct (line_rows p (uniform (Z.of_nat p) (Z.of_nat p + 1)) (segment a e (Z.of_nat p + 1)) a (subR e a) u) as (R0 & R1 & R2);
    rewrite ?LP; try assumption; [rewrite subR_length; congruence| |].
  - intros i c Hi Hc; rewrite bezier_knot_sum by lia; unfold segment; rewrite nth_tab by lia.
    replace (Z.of_nat p + 1 - 1)%Z with (Z.of_nat p) by lia; rewrite Z2Nat.id, <- INR_IZR_INZ by lia.
    unfold lerp; rewrite nth_map3 by exact Hc; f_equal; f_equal.
    destruct a as [|a0 [|a1 [|a2 [|]]]]; try discriminate La; destruct e as [|e0 [|e1 [|e2 [|]]]]; try discriminate Le.
    destruct c as [|[|[|]]]; [reflexivity..|lia].
  - split; [|split; assumption]; rewrite R0; unfold lerp.
    destruct a as [|a0 [|a1 [|a2 [|]]]]; try discriminate La; destruct e as [|e0 [|e1 [|e2 [|]]]]; try discriminate Le; reflexivity.
Qed.
(** Every point has a parameter on a segment that is not a point. *)
Lemma segment_inversion p a e d Q e1 e2 mi : (2 <= p)%nat -> length a = 3%nat -> length e = 3%nat -> length Q = 3%nat -> a <> e ->
  0 <= e1 -> 0 <= e2 -> (0 <= mi)%Z ->
  exists u, 0 <= u <= 1 /\
    curve_inversion (beh_of_curve3 (curve_of (Z.of_nat p) (uniform (Z.of_nat p) (Z.of_nat p + 1)) (segment a e (Z.of_nat p + 1)) d))
      (fin Q) (Fin e1 : Exact) (Fin e2 : Exact) mi = Ok (Fin u : Exact).
Proof.
  intros Hp La Le LQ Hne He1 He2 Hmi.
  assert (LP : len (segment a e (Z.of_nat p + 1)) = (Z.of_nat p + 1)%Z) by (apply segment_len; lia).
  destruct (bezier_knots p ltac:(lia) _ LP) as (HC & HS & H0 & H1).
  destruct (curve_inversion_outcome p _ _ d HC HS H0 H1 Hp (segment_3 a e _) Q e1 e2 mi LQ He1 He2 Hmi) as [H|(_ & u & m & Hu & E & Z1 & _)];
    rewrite LP in *; [exact H|exfalso].
  destruct (curve_rows_ok p (uniform (Z.of_nat p) (Z.of_nat p + 1)) (segment a e (Z.of_nat p + 1)) d u) as [_ E2];
    rewrite ?LP; try assumption; [apply segment_3|].
  assert (J : forall a b : list (list Exact), Ok a = Ok b -> a = b) by (intros a' b' H; injection H as H; exact H).
  rewrite E2 in E; apply J, fin2_inj in E; rewrite <- E in Z1; cbn [nth] in Z1.
  destruct (segment_rows p a e u ltac:(lia) La Le Hu) as (_ & R1 & _); cbv zeta in R1; rewrite R1 in Z1.
  apply Hne; pose proof (Z1 0%nat) as Y0; pose proof (Z1 1%nat) as Y1; pose proof (Z1 2%nat) as Y2.
  destruct a as [|a0 [|a1 [|a2 [|]]]]; try discriminate La; destruct e as [|f0 [|f1 [|f2 [|]]]]; try discriminate Le.
  cbn in Y0, Y1, Y2; repeat f_equal; lra.
Qed.

(** ** Curves that are a single point *)
Lemma constant_inversion (c : curve_beh Exact) pt d1 d2 A Q e1 e2 mi : proper_curve c pt d1 d2 -> length A = 3%nat -> length Q = 3%nat ->
  (forall u, 0 <= u <= 1 -> pt u = A /\ d1 u = [0; 0; 0] /\ d2 u = [0; 0; 0]) -> (0 <= mi)%Z -> (1 <= cb_count c)%Z ->
  0 <= e1 < distR A Q -> curve_inversion c (fin Q) (Fin e1 : Exact) (Fin e2 : Exact) mi = Err ValueError.
Proof.
  intros HC LA LQ HK Hmi Hn He.
  destruct (initial_guess_spec c Q (fun i => pt (IZR i / IZR (2 * cb_count c - 1))) _ eq_refl Hn) as (k & Hk & EG & _).
  { intros i Hi; destruct (proj1 HC _ (samples_range _ i Hn Hi)) as (E & L & _); split; [exact E|congruence]. }
  set (u := IZR k / IZR (2 * cb_count c - 1)) in *.
  assert (Hu : 0 <= u <= 1) by (apply samples_range; lia).
  destruct (HK u Hu) as (E0 & E1 & E2).
  unfold curve_inversion, curve_inversion_fuel; rewrite EG; cbn [bind].
  destruct (proj1 HC u Hu) as (_ & _ & _ & _ & rest & ED); rewrite (rows_of c _ _ _ _ _ ED); cbn [bind].
  rewrite (dist_at c pt d1 d2 Q HC LQ u Hu); cbn [bind]; rewrite E_leb, E0.
  change (normR (subR A Q)) with (distR A Q); rewrite (proj2 (Rleb_false (distR A Q) e1)) by lra.
  assert (N0 : normR [0; 0; 0] = 0) by (unfold normR; rewrite dotR_null; [apply sqrt_0|intros [|[|[|[|]]]]; reflexivity]).
  assert (D0 : forall b, dotR [0; 0; 0] b = 0) by (intros b; apply dotR_null; intros [|[|[|[|]]]]; reflexivity).
  assert (LR : length (subR A Q) = 3%nat) by (rewrite subR_length; congruence).
  unfold curve_cos; rewrite E1, E_np_sub by congruence; cbn [bind].
  rewrite E_dot by (rewrite LR; reflexivity); cbn [bind]; rewrite E_snorm, !E_vnorm, E_mul, D0, N0, Rmult_0_l, Rabs_R0, E_div0.
  change ((NaN : Exact) <=? (Fin e2 : Exact))%num with false; cbv iota.
  replace (Z.to_nat (mi + 2)) with (S (Z.to_nat (mi + 1))) by lia; cbn [curve_loop].
  unfold curve_newton; rewrite E2, E_np_sub by congruence; cbn [bind].
  rewrite !E_dot by (rewrite LR; reflexivity); cbn [bind]; cbv zeta.
  rewrite !E_vnorm, E_mul, E_add, !D0, N0, Rmult_0_l, Rplus_0_l, E_div0.
  cbv iota; change ((Fin u : Exact) - NaN)%num with (NaN : Exact).
  change ((NaN : Exact) <? 0)%num with false; change (1 <? (NaN : Exact))%num with false; cbv iota; cbn [bind].
  destruct (_ <=? (Fin e1 : Exact))%num eqn:EN; [apply nan_cond in EN; discriminate|].
  rewrite (nan_rejected c pt d1 d2 HC); reflexivity.
Qed.
Lemma segment_point p a : (1 <= p)%nat -> length a = 3%nat -> segment a a (Z.of_nat p + 1) = repeat a (S p).
Proof.
  intros Hp La; unfold segment; replace (Z.to_nat (Z.of_nat p + 1)) with (S p) by lia; rewrite repeat_tab; apply tab_ext; intros i _; unfold lerp.
  destruct a as [|a0 [|a1 [|a2 [|]]]]; try discriminate La; cbn [map nth]; repeat f_equal; ring.
Qed.
Lemma point_inversion p U A n d Q e1 e2 mi : clamped (Z.of_nat p) (Z.of_nat n) U -> strict (Z.of_nat p) (Z.of_nat n) U ->
  kn U (Z.of_nat p) = 0 -> kn U (Z.of_nat n) = 1 -> (2 <= p)%nat -> length A = 3%nat -> length Q = 3%nat -> (0 <= mi)%Z -> 0 <= e1 < distR A Q ->
  curve_inversion (beh_of_curve3 (curve_of (Z.of_nat p) U (repeat A n) d)) (fin Q) (Fin e1 : Exact) (Fin e2 : Exact) mi = Err ValueError.
Proof.
  intros HC HS H0 H1 Hp LA LQ Hmi He.
  assert (LP : len (repeat A n) = Z.of_nat n) by (unfold len; rewrite repeat_length; reflexivity).
  assert (F3 : Forall (fun r => length r = 3%nat) (repeat A n)) by (apply Forall_forall; intros r Hr; apply repeat_spec in Hr; subst r; exact LA).
  rewrite <- LP in HC, HS, H1.
  apply (constant_inversion _ _ _ _ A Q e1 e2 mi (curve_proper p U (repeat A n) d HC HS H0 H1 Hp F3)); try assumption.
  - intros u Hu; destruct (line_rows p U (repeat A n) A [0; 0; 0] u HC HS H0 H1 ltac:(lia) Hu LA eq_refl) as (R0 & R1 & R2).
    + intros i c Hi Hc; rewrite LP in Hi; rewrite (nth_indep _ [] A), nth_repeat by (rewrite repeat_length; lia).
      replace (nth c [0; 0; 0] 0) with 0 by (destruct c as [|[|[|[|]]]]; reflexivity); ring.
    + split; [|split; assumption]; rewrite R0.
      destruct A as [|a0 [|a1 [|a2 [|]]]]; try discriminate LA; cbn [map nth]; repeat f_equal; ring.
  - rewrite beh_count, LP; destruct HC as ((? & ? & _) & _); lia.
Qed.
