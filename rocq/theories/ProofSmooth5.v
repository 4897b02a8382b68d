(** Moving a curve or surface and the data together (models: ModelParam.v,
    ModelFit.v), in exact arithmetic. *)
From Verif Require Import Py PyLemmas Num ModelKnots ModelBasis ModelCurve ModelSurface ModelParam Spec SpecParam SpecSmooth MathCox MathKnots MathDeriv
  ProofNum ProofSpan ProofBasis ProofCurve ProofCurve2 ProofSurface ProofSurface2 ProofInit ProofParam ProofParam2 ProofParam3 ProofParam5 ProofParam6 ProofFit4 ProofSmooth3 ProofSmooth4.
Open Scope R_scope.

(** ** Orthogonal matrices *)
Definition spin (M : nat -> nat -> R) (v : list R) : list R := affine M (fun _ => 0) v.
Lemma spin_dot M a b : orthogonal M -> length a = 3%nat -> length b = 3%nat -> dotR (spin M a) (spin M b) = dotR a b.
Proof.
  intros [HM _] La Lb; destruct a as [|a0 [|a1 [|a2 [|]]]]; try discriminate La; destruct b as [|b0 [|b1 [|b2 [|]]]]; try discriminate Lb.
  pose proof (HM 0 0 ltac:(lia) ltac:(lia))%nat as H00; pose proof (HM 0 1 ltac:(lia) ltac:(lia))%nat as H01; pose proof (HM 0 2 ltac:(lia) ltac:(lia))%nat as H02.
  pose proof (HM 1 1 ltac:(lia) ltac:(lia))%nat as H11; pose proof (HM 1 2 ltac:(lia) ltac:(lia))%nat as H12; pose proof (HM 2 2 ltac:(lia) ltac:(lia))%nat as H22.
  cbn [Nat.eqb] in *; unfold spin, affine, dotR; cbn [map combine fold_right fst snd nth].
  transitivity (a0 * b0 * (M 0%nat 0%nat * M 0%nat 0%nat + M 1%nat 0%nat * M 1%nat 0%nat + M 2%nat 0%nat * M 2%nat 0%nat)
    + a1 * b1 * (M 0%nat 1%nat * M 0%nat 1%nat + M 1%nat 1%nat * M 1%nat 1%nat + M 2%nat 1%nat * M 2%nat 1%nat)
    + a2 * b2 * (M 0%nat 2%nat * M 0%nat 2%nat + M 1%nat 2%nat * M 1%nat 2%nat + M 2%nat 2%nat * M 2%nat 2%nat)
    + (a0 * b1 + a1 * b0) * (M 0%nat 0%nat * M 0%nat 1%nat + M 1%nat 0%nat * M 1%nat 1%nat + M 2%nat 0%nat * M 2%nat 1%nat)
    + (a0 * b2 + a2 * b0) * (M 0%nat 0%nat * M 0%nat 2%nat + M 1%nat 0%nat * M 1%nat 2%nat + M 2%nat 0%nat * M 2%nat 2%nat)
    + (a1 * b2 + a2 * b1) * (M 0%nat 1%nat * M 0%nat 2%nat + M 1%nat 1%nat * M 1%nat 2%nat + M 2%nat 1%nat * M 2%nat 2%nat)); [ring|].
  rewrite H00, H01, H02, H11, H12, H22; ring.
Qed.
Lemma affine_sub M b x y : length x = 3%nat -> length y = 3%nat -> subR (affine M b x) (affine M b y) = spin M (subR x y).
Proof.
  intros La Lb; destruct x as [|a0 [|a1 [|a2 [|]]]]; try discriminate La; destruct y as [|b0 [|b1 [|b2 [|]]]]; try discriminate Lb.
  unfold spin, affine, subR; cbn [map combine fst snd nth]; f_equal; [ring|f_equal; [ring|f_equal; ring]].
Qed.
Lemma affine_length M b v : length (affine M b v) = 3%nat. Proof. reflexivity. Qed.
Lemma sub_sym a b : length a = length b -> dotR (subR a b) (subR a b) = dotR (subR b a) (subR b a).
Proof.
  revert b; induction a as [|x a IH]; intros [|y b] H; try discriminate H; [reflexivity|].
  specialize (IH b ltac:(injection H as H; exact H)); unfold subR, dotR in *; cbn [combine map fold_right fst snd] in *; rewrite IH; ring.
Qed.

(** ** Projections on two curves with the same scalar products *)
Section Pair.
Variables (c c' : curve_beh Exact) (pt d1 d2 pt' d1' d2' : R -> list R) (Q Q' : list R).
Hypotheses (HC : proper_curve c pt d1 d2) (HC' : proper_curve c' pt' d1' d2') (LQ : length Q = 3%nat) (LQ' : length Q' = 3%nat)
  (HN : cb_count c' = cb_count c) (HN1 : (1 <= cb_count c)%Z).
Let r u := subR (pt u) Q.
Let r' u := subR (pt' u) Q'.
Hypothesis HD : forall u, 0 <= u <= 1 -> dotR (r' u) (r' u) = dotR (r u) (r u) /\ dotR (d1' u) (r' u) = dotR (d1 u) (r u) /\
  dotR (d2' u) (r' u) = dotR (d2 u) (r u) /\ dotR (d1' u) (d1' u) = dotR (d1 u) (d1 u).
Lemma norm_eq a b : dotR a a = dotR b b -> normR a = normR b.
Proof. unfold normR; intros ->; reflexivity. Qed.
Lemma pair_dist u : 0 <= u <= 1 -> curve_dist c' (fin Q') (Fin u : Exact) = curve_dist c (fin Q) (Fin u : Exact).
Proof.
  intros Hu; rewrite (dist_at c' pt' d1' d2' Q' HC' LQ' u Hu), (dist_at c pt d1 d2 Q HC LQ u Hu); do 2 f_equal; apply norm_eq; apply (HD u Hu).
Qed.
Lemma pair_cos u : 0 <= u <= 1 -> curve_cos (fin (pt' u)) (fin (d1' u)) (fin Q') = curve_cos (fin (pt u)) (fin (d1 u)) (fin Q).
Proof.
  intros Hu; destruct (proj1 HC u Hu) as (_ & L & L1 & _), (proj1 HC' u Hu) as (_ & L' & L1' & _), (HD u Hu) as (A & B & _ & D).
  unfold curve_cos; rewrite !E_np_sub by congruence; cbn [bind]; rewrite !E_dot by (rewrite subR_length; congruence); cbn [bind]; rewrite !E_vnorm.
  fold (r u) (r' u); rewrite B, (norm_eq _ _ A), (norm_eq _ _ D); reflexivity.
Qed.
Lemma pair_newton (x : Exact) u : 0 <= u <= 1 -> curve_newton x (fin (pt' u)) (fin (d1' u)) (fin (d2' u)) (fin Q') = curve_newton x (fin (pt u)) (fin (d1 u)) (fin (d2 u)) (fin Q).
Proof.
  intros Hu; destruct (proj1 HC u Hu) as (_ & L & L1 & L2 & _), (proj1 HC' u Hu) as (_ & L' & L1' & L2' & _), (HD u Hu) as (_ & B & C & D).
  unfold curve_newton; rewrite !E_np_sub by congruence; cbn [bind]; rewrite !E_dot by (rewrite subR_length; congruence); cbn [bind]; rewrite !E_vnorm.
  fold (r u) (r' u); rewrite B, C, (norm_eq _ _ D); reflexivity.
Qed.
Lemma newton_unit (x : Exact) a b e q u1 : curve_newton x a b e q = Ok u1 -> unit_or_nan u1.
Proof.
  unfold curve_newton; intros H; destruct (np_sub a q) as [v| |]; cbn [bind] in H; try discriminate.
  destruct (matmul11 b v) as [n| |]; cbn [bind] in H; try discriminate; destruct (matmul11 e v) as [t| |]; cbn [bind] in H; try discriminate.
  apply ok_inj in H; rewrite <- H; apply clamp_exact.
Qed.
Lemma dot_scale x l : dotR (map (fun i => i * x) l) (map (fun i => i * x) l) = x * x * dotR l l.
Proof. unfold dotR; induction l as [|y l IH]; cbn [map combine fold_right fst snd]; [ring|]; rewrite IH; ring. Qed.
Lemma pair_step u (x : Exact) : 0 <= u <= 1 -> unit_or_nan x ->
  vnorm (map (fun i => (i * (x - (Fin u : Exact)))%num) (fin (d1' u))) = vnorm (map (fun i => (i * (x - (Fin u : Exact)))%num) (fin (d1 u))).
Proof.
  intros Hu HX; destruct (proj1 HC u Hu) as (_ & _ & L1 & _), (proj1 HC' u Hu) as (_ & _ & L1' & _), (HD u Hu) as (_ & _ & _ & D).
  destruct HX as [->|(y & -> & Hy)].
  - destruct (d1 u) as [|a l]; [discriminate L1|]; destruct (d1' u) as [|a' l']; [discriminate L1'|]; cbn [fin map].
    change (((Fin a' : Exact) * ((NaN : Exact) - (Fin u : Exact)))%num) with (NaN : Exact); change (((Fin a : Exact) * ((NaN : Exact) - (Fin u : Exact)))%num) with (NaN : Exact).
    rewrite !vnorm_nan_head; reflexivity.
  - rewrite E_sub, !scale_null; f_equal; apply norm_eq; rewrite !dot_scale, D; reflexivity.
Qed.
Lemma pair_loop e1 e2 mi : forall f j u, 0 <= u <= 1 ->
  curve_loop f c' (fin Q') e1 e2 mi j (Fin u : Exact) (fin (pt' u)) (fin (d1' u)) (fin (d2' u)) = curve_loop f c (fin Q) e1 e2 mi j (Fin u : Exact) (fin (pt u)) (fin (d1 u)) (fin (d2 u)).
Proof.
  induction f as [|f IH]; intros j u Hu; [reflexivity|]; cbn [curve_loop]; rewrite pair_newton by exact Hu.
  destruct (curve_newton _ (fin (pt u)) _ _ _) as [x| |] eqn:EN; cbn [bind]; try reflexivity.
  pose proof (newton_unit _ _ _ _ _ _ EN) as HX; rewrite pair_step by assumption; destruct (_ <=? e1)%num; [reflexivity|].
  destruct HX as [->|(y & -> & Hy)].
  - unfold curve_rows; rewrite (proj2 HC), (proj2 HC') by apply not_unit_nan; reflexivity.
  - destruct (proj1 HC y Hy) as (_ & _ & _ & _ & w & ED), (proj1 HC' y Hy) as (_ & _ & _ & _ & w' & ED').
    rewrite (rows_of c _ _ _ _ _ ED), (rows_of c' _ _ _ _ _ ED'); cbn [bind]; rewrite pair_dist by exact Hy.
    destruct (curve_dist c _ _); cbn [bind]; try reflexivity; destruct (_ <=? e1)%num; [reflexivity|]; rewrite pair_cos by exact Hy.
    destruct (curve_cos (fin (pt y)) _ _); cbn [bind]; try reflexivity; destruct (_ <=? e2)%num; [reflexivity|]; destruct (mi <? j)%Z; [reflexivity|]; apply IH; exact Hy.
Qed.
Lemma pair_guess : initial_guess_curve c' (fin Q') = initial_guess_curve c (fin Q).
Proof.
  unfold initial_guess_curve; rewrite HN; cbv zeta; rewrite samples_exact by exact HN1.
  rewrite fin_tab_fun, aget_tab by lia; cbn [bind]; f_equal; apply for_range_ext; intros i st Hi.
  unfold guess_step; rewrite aget_tab by lia; cbn [bind]; pose proof (samples_range _ i HN1 Hi) as Hu; set (u := IZR i / _) in *.
  destruct (proj1 HC u Hu) as (E & L & _), (proj1 HC' u Hu) as (E' & L' & _); rewrite E, E'; cbn [bind]; rewrite !E_np_sub by congruence; cbn [bind]; rewrite !E_vnorm.
  replace (normR (subR Q' (pt' u))) with (normR (subR Q (pt u))); [reflexivity|]; apply norm_eq; rewrite (sub_sym Q), (sub_sym Q') by congruence.
  symmetry; apply (HD u Hu).
Qed.
Lemma pair_inversion e1 e2 mi : curve_inversion c' (fin Q') e1 e2 mi = curve_inversion c (fin Q) e1 e2 mi.
Proof.
  unfold curve_inversion, curve_inversion_fuel; rewrite pair_guess.
  destruct (initial_guess_spec c Q (fun i => pt (IZR i / IZR (2 * cb_count c - 1))) _ eq_refl HN1) as (k & Hk & EG & _).
  { intros i Hi; destruct (proj1 HC _ (samples_range _ i HN1 Hi)) as (E & L & _); split; [exact E|congruence]. }
  rewrite EG; cbn [bind]; pose proof (samples_range _ k HN1 Hk) as Hu; set (u := IZR k / _) in *.
  destruct (proj1 HC u Hu) as (_ & _ & _ & _ & w & ED), (proj1 HC' u Hu) as (_ & _ & _ & _ & w' & ED').
  rewrite (rows_of c _ _ _ _ _ ED), (rows_of c' _ _ _ _ _ ED'); cbn [bind]; rewrite pair_dist by exact Hu.
  destruct (curve_dist c _ _); cbn [bind]; try reflexivity; destruct (_ <=? e1)%num; [reflexivity|]; rewrite pair_cos by exact Hu.
  destruct (curve_cos (fin (pt u)) _ _); cbn [bind]; try reflexivity; destruct (_ <=? e2)%num; [reflexivity|]; apply pair_loop; exact Hu.
Qed.
End Pair.

(** ** Derivatives of moved curves *)
Lemma moved_coord M b P c i : (i < length P)%nat -> (c < 3)%nat ->
  nth i (coords c (map (affine M b) P)) 0 = M c 0%nat * nth i (coords 0 P) 0 + M c 1%nat * nth i (coords 1 P) 0 + M c 2%nat * nth i (coords 2 P) 0 + b c.
Proof.
  intros Hi Hc; rewrite !nth_coords, (nth_indep _ [] (affine M b [])) by (rewrite map_length; exact Hi).
  rewrite map_nth; unfold affine at 1; rewrite nth_map3 by exact Hc; reflexivity.
Qed.
Lemma nth_repeat_lt (x : R) n i : (i < n)%nat -> nth i (repeat x n) 0 = x.
Proof. intros H; rewrite (nth_indep _ 0 x) by (rewrite repeat_length; exact H); apply nth_repeat. Qed.
Lemma ders_const U s p k n u : nondecreasing U -> kn U s < kn U (s + 1) -> (Z.of_nat p <= s < Z.of_nat n)%Z ->
  zsum 0 n (fun i => Dx (delta s) (kn U) k p i u) = match k with O => 1 | _ => 0 end.
Proof.
  intros HU Hlt Hs.
  assert (E : zsum 0 n (fun i => Dx (delta s) (kn U) k p i u) = curve_ders U s p k (repeat 1 n) u).
  { unfold curve_ders; rewrite repeat_length; apply zsum_ext; intros i Hi; rewrite (nth_repeat_lt 1 n) by lia; ring. }
  rewrite E; rewrite (nd_line k (curve_piece U s p (repeat 1 n)) 1 0 _); [destruct k as [|[|k]]; ring| |apply curve_ders_true; exact HU].
  intros x; unfold curve_piece; rewrite repeat_length.
  transitivity (zsum 0 n (fun i => piece U s p i x)); [apply zsum_ext; intros i Hi; rewrite (nth_repeat_lt 1 n) by lia; ring|].
  rewrite (zsum_window 0 n (s - Z.of_nat p) (S p)); [rewrite piece_unity by assumption; ring|lia|lia|].
  intros i Hi Ho; apply piece_support; lia.
Qed.
Definition shift_of (k : nat) (b : nat -> R) : nat -> R := match k with O => b | _ => fun _ => 0 end.
Lemma curve_ders_moved U s p k M b P u c : nondecreasing U -> kn U s < kn U (s + 1) -> (Z.of_nat p <= s < len P)%Z -> (c < 3)%nat ->
  curve_ders U s p k (coords c (map (affine M b) P)) u
  = M c 0%nat * curve_ders U s p k (coords 0 P) u + M c 1%nat * curve_ders U s p k (coords 1 P) u + M c 2%nat * curve_ders U s p k (coords 2 P) u + shift_of k b c.
Proof.
  intros HU Hlt Hs Hc; pose proof (ders_const U s p k (length P) u HU Hlt Hs) as E1.
  replace (shift_of k b c) with (b c * zsum 0 (length P) (fun i => Dx (delta s) (kn U) k p i u)) by (rewrite E1; destruct k; cbn [shift_of]; ring).
  unfold curve_ders, coords at 1 3 5 7; rewrite !map_length, <- !zsum_scal, <- !zsum_plus; apply zsum_ext; intros i Hi.
  rewrite moved_coord by (try assumption; lia); ring.
Qed.
Lemma curve_row_moved p U P M b k u : clamped (Z.of_nat p) (len P) U -> strict (Z.of_nat p) (len P) U -> kn U (Z.of_nat p) = 0 -> kn U (len P) = 1 -> 0 <= u <= 1 -> (0 <= k)%Z ->
  curve_row p U (map (affine M b) P) k u = affine M (shift_of (Z.to_nat k) b) (curve_row p U P k u).
Proof.
  intros HC HS H0 H1 Hu Hk; destruct (span_of_ok _ _ U u HC HS H0 H1 Hu) as (_ & Hs & Hlt).
  unfold curve_row, ders_row; replace (len (map (affine M b) P)) with (len P) by (unfold len; rewrite map_length; reflexivity).
  unfold affine at 2; cbn [map nth]; rewrite !curve_ders_moved by (try assumption; try lia; exact (proj2 (proj2 (proj2 (proj1 HC))))); reflexivity.
Qed.
Lemma Forall_moved M b P : Forall (fun r => length r = 3%nat) (map (affine M b) P).
Proof. apply Forall_forall; intros r Hr; apply in_map_iff in Hr; destruct Hr as (x & <- & _); reflexivity. Qed.
Lemma curve_inversion_moved p U P d Q e1 e2 mi M b : clamped (Z.of_nat p) (len P) U -> strict (Z.of_nat p) (len P) U -> kn U (Z.of_nat p) = 0 -> kn U (len P) = 1 -> (2 <= p)%nat ->
  Forall (fun row => length row = 3%nat) P -> length Q = 3%nat -> orthogonal M ->
  curve_inversion (beh_of_curve3 (curve_of (Z.of_nat p) U (map (affine M b) P) d)) (fin (affine M b Q)) e1 e2 mi
  = curve_inversion (beh_of_curve3 (curve_of (Z.of_nat p) U P d)) (fin Q) e1 e2 mi.
Proof.
  intros HC HS H0 H1 Hp HF LQ HM.
  assert (LE : len (map (affine M b) P) = len P) by (unfold len; rewrite map_length; reflexivity).
  pose proof (curve_proper p U P d HC HS H0 H1 Hp HF) as A.
  pose proof (curve_proper p U (map (affine M b) P) d ltac:(rewrite LE; exact HC) ltac:(rewrite LE; exact HS) H0 ltac:(rewrite LE; exact H1) Hp (Forall_moved M b P)) as B.
  apply (pair_inversion _ _ _ _ _ _ _ _ Q (affine M b Q) A B LQ (affine_length M b Q)).
  - rewrite !beh_count; exact LE.
  - rewrite beh_count; destruct HC as ((? & ? & _) & _); lia.
  - intros u Hu; rewrite !(curve_row_moved p U P M b) by (try assumption; lia).
    rewrite affine_sub by (try assumption; reflexivity); cbn [shift_of Z.to_nat Pos.to_nat].
    change (Pos.to_nat 1) with 1%nat; change (Pos.to_nat 2) with 2%nat; cbn [shift_of].
    fold (spin M (curve_row p U P 1 u)) (spin M (curve_row p U P 2 u)).
    assert (LR : length (subR (curve_row p U P 0 u) Q) = 3%nat) by (rewrite subR_length; [reflexivity|symmetry; exact LQ]).
    rewrite !spin_dot by (try assumption; reflexivity); auto.
Qed.
