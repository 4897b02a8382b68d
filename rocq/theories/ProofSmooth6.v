(** Moving a surface and the data together; fits of moved data. *)
From Coq Require Import Permutation.
From Verif Require Import Py PyLemmas Num ModelKnots ModelBasis ModelCurve ModelSurface ModelInit ModelParam ModelFit Spec SpecParam SpecFit SpecSmooth MathCox MathKnots MathDeriv
  ProofNum ProofSpan ProofBasis ProofCurve ProofCurve2 ProofSurface ProofSurface2 ProofInit ProofParam ProofParam2 ProofParam3 ProofParam4 ProofParam5 ProofParam6 ProofFit4 ProofFit5
  ProofSmooth3 ProofSmooth4 ProofSmooth5.
Open Scope R_scope.

Section Pair.
Variables (s s' : surf_beh Exact) (pt du dv duu dvv duv pt' du' dv' duu' dvv' duv' : R -> R -> list R) (Q Q' : list R).
Hypotheses (HS : proper_surface s pt du dv duu dvv duv) (HS' : proper_surface s' pt' du' dv' duu' dvv' duv') (LQ : length Q = 3%nat) (LQ' : length Q' = 3%nat)
  (HNu : sb_nu s' = sb_nu s) (HNv : sb_nv s' = sb_nv s) (Hnu : (1 <= sb_nu s)%Z) (Hnv : (1 <= sb_nv s)%Z).
Let inside u v := 0 <= u <= 1 /\ 0 <= v <= 1.
Let r u v := subR (pt u v) Q.
Let r' u v := subR (pt' u v) Q'.
Hypothesis HD : forall a b u v, inside a b -> inside u v -> dotR (r' u v) (r' u v) = dotR (r u v) (r u v) /\
  dotR (du' a b) (r' u v) = dotR (du a b) (r u v) /\ dotR (dv' a b) (r' u v) = dotR (dv a b) (r u v) /\
  dotR (r' u v) (du' a b) = dotR (r u v) (du a b) /\ dotR (r' u v) (dv' a b) = dotR (r u v) (dv a b) /\
  dotR (r' u v) (duu' a b) = dotR (r u v) (duu a b) /\ dotR (r' u v) (dvv' a b) = dotR (r u v) (dvv a b) /\ dotR (r' u v) (duv' a b) = dotR (r u v) (duv a b) /\
  dotR (du' a b) (du' a b) = dotR (du a b) (du a b) /\ dotR (dv' a b) (dv' a b) = dotR (dv a b) (dv a b) /\ dotR (du' a b) (dv' a b) = dotR (du a b) (dv a b).
Let rows u v : surf_rows Exact := mkRows (fin (du u v)) (fin (dv u v)) (fin (duu u v)) (fin (dvv u v)) (fin (duv u v)).
Let rows' u v : surf_rows Exact := mkRows (fin (du' u v)) (fin (dv' u v)) (fin (duu' u v)) (fin (dvv' u v)) (fin (duv' u v)).
Lemma pair_res u v : inside u v -> surf_res s (fin Q) (Fin u : Exact) (Fin v : Exact) = Ok (fin (r u v)) /\ surf_res s' (fin Q') (Fin u : Exact) (Fin v : Exact) = Ok (fin (r' u v)) /\
  length (r u v) = 3%nat /\ length (r' u v) = 3%nat.
Proof.
  intros [Hu Hv]; destruct (HS u v Hu Hv) as (E & L & _), (HS' u v Hu Hv) as (E' & L' & _); unfold surf_res; rewrite E, E'; cbn [bind].
  rewrite !E_np_sub by congruence; split; [reflexivity|]; split; [reflexivity|]; unfold r, r'; rewrite !subR_length by congruence; split; assumption.
Qed.
Lemma pair_snewton a b u v : inside a b -> inside u v ->
  surf_newton s' (fin Q') (Fin u : Exact) (Fin v : Exact) (rows' a b) = surf_newton s (fin Q) (Fin u : Exact) (Fin v : Exact) (rows a b).
Proof.
  intros Hab Huv; destruct (pair_res u v Huv) as (E & E' & LR & LR'), (HD a b u v Hab Huv) as (_ & _ & _ & D1 & D2 & D3 & D4 & D5 & D6 & D7 & D8).
  destruct (HS a b (proj1 Hab) (proj2 Hab)) as (_ & _ & L1 & L2 & L3 & L4 & L5 & _), (HS' a b (proj1 Hab) (proj2 Hab)) as (_ & _ & K1 & K2 & K3 & K4 & K5 & _).
  unfold surf_newton; rewrite E, E'; cbn [bind rows rows' sr_u sr_v sr_uu sr_vv sr_uv]; rewrite !E_dot by congruence; cbn [bind]; cbv zeta; rewrite !E_vnorm.
  rewrite D1, D2, D3, D4, D5, D8, (norm_eq _ _ D6), (norm_eq _ _ D7); reflexivity.
Qed.
Lemma pair_scos a b u v : inside a b -> inside u v ->
  surf_cos (fin (du' a b)) (fin (r' u v)) = surf_cos (fin (du a b)) (fin (r u v)) /\ surf_cos (fin (dv' a b)) (fin (r' u v)) = surf_cos (fin (dv a b)) (fin (r u v)).
Proof.
  intros Hab Huv; destruct (pair_res u v Huv) as (_ & _ & LR & LR'), (HD a b u v Hab Huv) as (D0 & D1 & D2 & _ & _ & _ & _ & _ & D6 & D7 & _).
  destruct (HS a b (proj1 Hab) (proj2 Hab)) as (_ & _ & L1 & L2 & _), (HS' a b (proj1 Hab) (proj2 Hab)) as (_ & _ & K1 & K2 & _).
  unfold surf_cos; rewrite !E_dot by congruence; cbn [bind]; rewrite !E_vnorm, D1, D2, (norm_eq _ _ D0), (norm_eq _ _ D6), (norm_eq _ _ D7); split; reflexivity.
Qed.
Lemma pair_sstep a b x y : inside a b ->
  exists m m', np_bin nadd (vscale (Fin x : Exact) (fin (du a b))) (vscale (Fin y : Exact) (fin (dv a b))) = Ok m /\
    np_bin nadd (vscale (Fin x : Exact) (fin (du' a b))) (vscale (Fin y : Exact) (fin (dv' a b))) = Ok m' /\ vnorm m' = vnorm m.
Proof.
  intros Hab; destruct (HD a b a b Hab Hab) as (_ & _ & _ & _ & _ & _ & _ & _ & D6 & D7 & D8).
  destruct (HS a b (proj1 Hab) (proj2 Hab)) as (_ & _ & L1 & L2 & _), (HS' a b (proj1 Hab) (proj2 Hab)) as (_ & _ & K1 & K2 & _).
  assert (V : forall x l, vscale (Fin x : Exact) (fin l) = fin (map (Rmult x) l)) by (intros z l; unfold vscale, fin; rewrite !map_map; apply map_ext; intros; apply E_mul).
  rewrite !V, !(E_np_bin _ Rplus) by (try (intros; apply E_add); rewrite !map_length; congruence).
  do 2 eexists; split; [reflexivity|]; split; [reflexivity|]; rewrite !E_vnorm; f_equal; apply norm_eq.
  destruct (du a b) as [|p0 [|p1 [|p2 [|]]]]; try discriminate L1; destruct (dv a b) as [|q0 [|q1 [|q2 [|]]]]; try discriminate L2.
  destruct (du' a b) as [|p0' [|p1' [|p2' [|]]]]; try discriminate K1; destruct (dv' a b) as [|q0' [|q1' [|q2' [|]]]]; try discriminate K2.
  unfold dotR in *; cbn [map combine fold_right fst snd] in *.
  transitivity (x * x * (p0 * p0 + (p1 * p1 + (p2 * p2 + 0))) + y * y * (q0 * q0 + (q1 * q1 + (q2 * q2 + 0))) + 2 * (x * y) * (p0 * q0 + (p1 * q1 + (p2 * q2 + 0)))); [rewrite <- D6, <- D7, <- D8; ring|ring].
Qed.
Lemma pair_sloop e1 e2 mi : forall f n a b u v, inside a b -> inside u v ->
  surf_loop f s' (fin Q') e1 e2 mi n (Fin u : Exact) (Fin v : Exact) (rows' a b) = surf_loop f s (fin Q) e1 e2 mi n (Fin u : Exact) (Fin v : Exact) (rows a b).
Proof.
  induction f as [|f IH]; intros n a b u v Hab Huv; [reflexivity|]; cbn [surf_loop]; rewrite pair_snewton by assumption.
  destruct (snewton_at s pt du dv duu dvv duv Q HS LQ a b u v Hab Huv) as [(u1 & v1 & H1 & E)|[E _]]; fold (rows a b) in E; rewrite E; cbn [bind]; [|reflexivity].
  rewrite !E_sub; cbn [rows rows' sr_u sr_v]; destruct (pair_sstep a b (u1 - u) (v1 - v) Hab) as (m & m' & Em & Em' & EV); rewrite Em, Em'; cbn [bind]; rewrite EV.
  destruct (_ <=? e1)%num; [reflexivity|].
  rewrite (srows_at s pt du dv duu dvv duv Q HS LQ u v Huv), (srows_at s' pt' du' dv' duu' dvv' duv' Q' HS' LQ' u v Huv); cbn [bind sr_u sr_v].
  destruct (pair_res u1 v1 H1) as (ER & ER' & _); rewrite ER, ER'; cbn [bind]; rewrite !E_vnorm.
  replace (normR (r' u1 v1)) with (normR (r u1 v1)) by (apply norm_eq; symmetry; apply (HD u1 v1 u1 v1 H1 H1)).
  destruct (_ <=? e1)%num; [reflexivity|]; destruct (pair_scos u v u1 v1 Huv H1) as [Ea Eb]; rewrite Ea, Eb.
  destruct (surf_cos (fin (du u v)) _); cbn [bind]; try reflexivity; destruct (surf_cos (fin (dv u v)) _); cbn [bind]; try reflexivity.
  destruct (_ && _); [reflexivity|]; destruct (mi <=? n)%Z; [reflexivity|]; apply (IH _ u v u1 v1); assumption.
Qed.
Lemma pair_sguess : initial_guess_surf s' (fin Q') = initial_guess_surf s (fin Q).
Proof.
  unfold initial_guess_surf; rewrite HNu, HNv; cbv zeta; rewrite !samples_exact by assumption.
  rewrite !fin_tab_fun, !aget_tab by lia; cbn [bind]; f_equal; apply for_range_ext; intros i st Hi; apply for_range_ext; intros j st' Hj.
  unfold guess_step2; rewrite !aget_tab by lia; cbn [bind]; pose proof (samples_range _ i Hnu Hi) as Hu; pose proof (samples_range _ j Hnv Hj) as Hv; set (u := IZR i / _) in *; set (v := IZR j / _) in *.
  destruct (HS u v Hu Hv) as (E & L & _), (HS' u v Hu Hv) as (E' & L' & _); rewrite E, E'; cbn [bind]; rewrite !E_np_sub by congruence; cbn [bind]; rewrite !E_vnorm.
  replace (normR (subR Q' (pt' u v))) with (normR (subR Q (pt u v))); [reflexivity|]; apply norm_eq; rewrite (sub_sym Q), (sub_sym Q') by congruence.
  symmetry; apply (HD u v u v); split; assumption.
Qed.
Lemma pair_sinversion e1 e2 mi : surface_inversion s' (fin Q') e1 e2 mi = surface_inversion s (fin Q) e1 e2 mi.
Proof.
  unfold surface_inversion, surface_inversion_fuel; rewrite pair_sguess.
  destruct (guess_at s pt du dv duu dvv duv Q HS LQ Hnu Hnv) as (k & l & _ & _ & H); cbv zeta in H; destruct H as (Hin & EG & _).
  rewrite EG; cbn [bind]; set (u := IZR k / _) in *; set (v := IZR l / _) in *.
  rewrite (srows_at s pt du dv duu dvv duv Q HS LQ u v Hin), (srows_at s' pt' du' dv' duu' dvv' duv' Q' HS' LQ' u v Hin); cbn [bind sr_u sr_v].
  destruct (pair_res u v Hin) as (ER & ER' & _); rewrite ER, ER'; cbn [bind]; rewrite !E_vnorm.
  replace (normR (r' u v)) with (normR (r u v)) by (apply norm_eq; symmetry; apply (HD u v u v Hin Hin)).
  destruct (_ <=? e1)%num; [reflexivity|]; destruct (pair_scos u v u v Hin Hin) as [Ea Eb]; rewrite Ea, Eb.
  destruct (surf_cos (fin (du u v)) _); cbn [bind]; try reflexivity; destruct (surf_cos (fin (dv u v)) _); cbn [bind]; try reflexivity.
  destruct (_ && _); [reflexivity|]; apply (pair_sloop e1 e2 mi _ 0 u v u v); assumption.
Qed.
End Pair.

(** ** Derivatives of moved surfaces *)
Lemma surface_ders_moved U V s t p q nu nv a k M b P u v c : nondecreasing U -> nondecreasing V -> kn U s < kn U (s + 1) -> kn V t < kn V (t + 1) ->
  (Z.of_nat p <= s < Z.of_nat nu)%Z -> (Z.of_nat q <= t < Z.of_nat nv)%Z -> (c < 3)%nat -> length P = (nu * nv)%nat ->
  surface_ders U V s t p q nu nv a k (coords c (map (affine M b) P)) u v
  = M c 0%nat * surface_ders U V s t p q nu nv a k (coords 0 P) u v + M c 1%nat * surface_ders U V s t p q nu nv a k (coords 1 P) u v
    + M c 2%nat * surface_ders U V s t p q nu nv a k (coords 2 P) u v + shift_of (a + k) b c.
Proof.
  intros HU HV Hs Ht Hps Hqt Hc HL.
  pose proof (ders_const U s p a nu u HU Hs Hps) as E1; pose proof (ders_const V t q k nv v HV Ht Hqt) as E2.
  replace (shift_of (a + k) b c) with (b c * zsum 0 nu (fun i => zsum 0 nv (fun j => Dx (delta s) (kn U) a p i u * Dx (delta t) (kn V) k q j v))).
  - unfold surface_ders; rewrite <- !zsum_scal, <- !zsum_plus; apply zsum_ext; intros i Hi.
    rewrite <- !zsum_scal, <- !zsum_plus; apply zsum_ext; intros j Hj; rewrite moved_coord by (try assumption; nia); ring.
  - rewrite (zsum_ext _ _ _ (fun i => Dx (delta s) (kn U) a p i u * match k with O => 1 | _ => 0 end)) by (intros i _; rewrite zsum_scal, E2; reflexivity).
    rewrite zsum_scal_r, E1; destruct a, k; cbn [shift_of Nat.add]; ring.
Qed.
Lemma surf_row_moved p q nu nv U V P M b k u v : clamped (Z.of_nat p) (Z.of_nat nu) U -> clamped (Z.of_nat q) (Z.of_nat nv) V ->
  strict (Z.of_nat p) (Z.of_nat nu) U -> strict (Z.of_nat q) (Z.of_nat nv) V ->
  kn U (Z.of_nat p) = 0 -> kn U (Z.of_nat nu) = 1 -> kn V (Z.of_nat q) = 0 -> kn V (Z.of_nat nv) = 1 -> length P = (nu * nv)%nat -> 0 <= u <= 1 -> 0 <= v <= 1 -> (0 <= k)%Z ->
  surf_row p q nu nv U V (map (affine M b) P) k u v = affine M (shift_of (Z.to_nat k) b) (surf_row p q nu nv U V P k u v).
Proof.
  intros CU CV SU SV U0 U1 V0 V1 HL Hu Hv Hk.
  destruct (span_of_ok _ _ U u CU SU U0 U1 Hu) as (_ & Hs & Hlu), (span_of_ok _ _ V v CV SV V0 V1 Hv) as (_ & Ht & Hlv).
  unfold surf_row, raw_row; unfold affine at 2; cbn [map nth].
  rewrite !surface_ders_moved by (try assumption; try lia; first [exact (proj2 (proj2 (proj2 (proj1 CU))))|exact (proj2 (proj2 (proj2 (proj1 CV))))]).
  assert (ES : shift_of (Z.to_nat (k / (Z.of_nat 2 + 1)) + Z.to_nat (k mod (Z.of_nat 2 + 1))) b = shift_of (Z.to_nat k) b).
  { destruct (Z.eq_dec k 0) as [->|Hn]; [reflexivity|].
    assert (0 <= k / (Z.of_nat 2 + 1))%Z by (apply Z.div_pos; lia).
    assert (0 <= k mod (Z.of_nat 2 + 1) < Z.of_nat 2 + 1)%Z by (apply Z.mod_pos_bound; lia).
    pose proof (Z.div_mod k (Z.of_nat 2 + 1) ltac:(lia)).
    destruct (Z.to_nat (k / (Z.of_nat 2 + 1)) + Z.to_nat (k mod (Z.of_nat 2 + 1)))%nat as [|x] eqn:E; [exfalso; lia|].
    destruct (Z.to_nat k) as [|y] eqn:E'; [exfalso; lia|]; reflexivity. }
  rewrite ES; reflexivity.
Qed.
Lemma surface_inversion_moved p q nu nv U V P Q e1 e2 mi M b : clamped (Z.of_nat p) (Z.of_nat nu) U -> clamped (Z.of_nat q) (Z.of_nat nv) V ->
  strict (Z.of_nat p) (Z.of_nat nu) U -> strict (Z.of_nat q) (Z.of_nat nv) V ->
  kn U (Z.of_nat p) = 0 -> kn U (Z.of_nat nu) = 1 -> kn V (Z.of_nat q) = 0 -> kn V (Z.of_nat nv) = 1 -> (2 <= p)%nat -> (2 <= q)%nat ->
  Forall (fun row => length row = 3%nat) P -> length P = (nu * nv)%nat -> length Q = 3%nat -> orthogonal M ->
  surface_inversion (beh_of_surf (surf_of p q nu nv U V (map (affine M b) P))) (fin (affine M b Q)) e1 e2 mi
  = surface_inversion (beh_of_surf (surf_of p q nu nv U V P)) (fin Q) e1 e2 mi.
Proof.
  intros CU CV SU SV U0 U1 V0 V1 Hp Hq HF HL LQ HM.
  pose proof (surf_proper p q nu nv U V P CU CV SU SV U0 U1 V0 V1 Hp Hq HF HL) as A.
  pose proof (surf_proper p q nu nv U V (map (affine M b) P) CU CV SU SV U0 U1 V0 V1 Hp Hq (Forall_moved M b P) ltac:(rewrite map_length; exact HL)) as B.
  apply (pair_sinversion _ _ _ _ _ _ _ _ _ _ _ _ _ _ Q (affine M b Q) A B LQ (affine_length M b Q)); try reflexivity.
  - cbn; destruct CU as ((? & ? & _) & _); lia.
  - cbn; destruct CV as ((? & ? & _) & _); lia.
  - intros x y u v [Hx Hy] [Hu Hv]; rewrite !(surf_row_moved p q nu nv U V P M b) by (try assumption; lia).
    rewrite affine_sub by (try assumption; reflexivity).
    change (Z.to_nat 0) with 0%nat; change (Z.to_nat 1) with 1%nat; change (Z.to_nat 2) with 2%nat; change (Z.to_nat 3) with 3%nat; change (Z.to_nat 4) with 4%nat; change (Z.to_nat 6) with 6%nat; cbn [shift_of].
    fold (spin M (surf_row p q nu nv U V P 1 x y)) (spin M (surf_row p q nu nv U V P 2 x y)) (spin M (surf_row p q nu nv U V P 3 x y)) (spin M (surf_row p q nu nv U V P 4 x y)) (spin M (surf_row p q nu nv U V P 6 x y)).
    assert (LR : length (subR (surf_row p q nu nv U V P 0 u v) Q) = 3%nat) by (rewrite subR_length; [reflexivity|symmetry; exact LQ]).
    rewrite !spin_dot by (try assumption; reflexivity); repeat (split; [reflexivity|]); reflexivity.
Qed.
