(** Parameterisation of moved data (model: ModelParam.v). *)
From Coq Require Import Permutation Sorted.
From Verif Require Import Py PyLemmas Num ModelKnots ModelBasis ModelCurve ModelSurface ModelParam Spec SpecParam SpecSmooth
  ProofNum ProofCurve ProofCurve2 ProofSurface ProofSurface2 ProofParam ProofParam2 ProofParam3 ProofParam4 ProofParam5 ProofParam6 ProofFit7 ProofSmooth5 ProofSmooth6 ProofSmooth7.
Open Scope R_scope.

Lemma mapM_fin2_map {Y} (f g : list Exact -> res Y) (h : list R -> list R) rows : (forall r, In r rows -> g (fin (h r)) = f (fin r)) -> mapM g (fin2 (map h rows)) = mapM f (fin2 rows).
Proof.
  induction rows as [|r rows IH]; intros H; [reflexivity|]; cbn [fin2 map mapM]; fold (fin r) (fin (h r)) (fin2 rows) (fin2 (map h rows)).
  rewrite (H r (or_introl eq_refl)), IH by (intros; apply H; right; assumption); reflexivity.
Qed.
Lemma Forall2_length {X Y} (B : X -> Y -> Prop) l l' : Forall2 B l l' -> length l = length l'.
Proof. induction 1; cbn; congruence. Qed.
Lemma moved_cons M b r t : length r = 3%nat -> moved M b (r ++ t) = affine M b r ++ t.
Proof. intros L; destruct r as [|x [|y [|z [|]]]]; try discriminate L; reflexivity. Qed.
Lemma mapM_known (f : list Exact -> res Exact) rows us : Forall2 (fun r u => f (fin r) = Ok (Fin u : Exact)) rows us -> mapM f (fin2 rows) = Ok (fin us).
Proof. induction 1 as [|r u rows us E _ IH]; [reflexivity|]; cbn [fin2 map mapM]; fold (fin2 rows) (fin r); rewrite E, IH; reflexivity. Qed.
Lemma mapM_known2 (f : list Exact -> res (Exact * Exact)) rows us : Forall2 (fun r uv => f (fin r) = Ok (Fin (fst uv) : Exact, Fin (snd uv) : Exact)) rows us ->
  mapM f (fin2 rows) = Ok (map fin_pair us).
Proof. induction 1 as [|r u rows us E _ IH]; [reflexivity|]; cbn [fin2 map mapM]; fold (fin2 rows) (fin r); rewrite E, IH; reflexivity. Qed.

Lemma parameterize_pair (c c' : curve_beh Exact) rows M b : Forall (fun r => length r = 3%nat) rows ->
  (forall u m, cb_ders c u = Ok m -> exists r, u = Fin r /\ 0 <= r <= 1) ->
  (forall r, In r rows -> curve_inversion c' (fin (affine M b r)) lit_1em5 lit_1em5 100 = curve_inversion c (fin r) lit_1em5 lit_1em5 100) ->
  let run := parameterize_curve c (mkData 3 (fin2 rows)) in let run' := parameterize_curve c' (mkData 3 (fin2 (map (affine M b) rows))) in
  (forall e, run = Err e -> run' = Err e) /\
  (forall out, run = Ok out -> exists x x', out = fin2 x /\ run' = Ok (fin2 x') /\ Permutation x' (map (moved M b) x)).
Proof.
  intros HF HR HI run run'.
  pose proof (mapM_fin2_map (fun point => curve_inversion c point lit_1em5 lit_1em5 100) (fun point => curve_inversion c' point lit_1em5 lit_1em5 100) (affine M b) rows HI) as EM.
  assert (FM : forall us : list R, Forall (fun r => length r = 4%nat) (map (fun t => fst t ++ [snd t]) (combine (map (affine M b) rows) us))).
  { intros us; apply Forall_forall; intros r Hr; apply in_map_iff in Hr; destruct Hr as ([a u] & <- & Hin); apply in_combine_l, in_map_iff in Hin; destruct Hin as (y & <- & _); reflexivity. }
  assert (Zip : forall us, length us = length rows -> map (fun t => fst t ++ [snd t]) (combine (map (affine M b) rows) us) = map (moved M b) (map (fun t => fst t ++ [snd t]) (combine rows us))).
  { clear - HF; induction HF as [|r rows L _ IH]; intros [|u us] Hl; try discriminate Hl; [reflexivity|]; cbn [map combine fst snd].
    rewrite moved_cons by exact L; rewrite IH by (injection Hl as Hl; exact Hl); reflexivity. }
  split.
  - intros e He; unfold run, run', parameterize_curve in *; cbn [dt_rows dt_cols] in *; rewrite EM.
    destruct (mapM _ (fin2 rows)) as [us| |] eqn:E; cbn [bind] in *; try exact He.
    exfalso; change (3 + 1)%Z with (Z.of_nat 4) in He; change 4%Z with (Z.of_nat 4) in He; rewrite sort_view_rows in He; [discriminate He|lia|].
    rewrite Forall_forall in *; intros r Hr; apply in_map_iff in Hr; destruct Hr as ([a x] & <- & Hab); apply in_combine_l in Hab; unfold fin2 in Hab; apply in_map_iff in Hab.
    destruct Hab as (y & <- & Hy); cbn [fst snd]; rewrite app_length; unfold fin; rewrite map_length, (HF y Hy); reflexivity.
  - intros out Ho; destruct (parameterize_curve_sorted c rows out HF HR Ho) as (us & x & HU & -> & HPm & _).
    set (x' := lex_sort [3%nat; 0%nat; 1%nat; 2%nat] (map (fun t => fst t ++ [snd t]) (combine (map (affine M b) rows) us))).
    exists x, x'; split; [reflexivity|]; split.
    + unfold run', parameterize_curve; cbn [dt_rows dt_cols]; rewrite EM, (mapM_known _ rows us).
      * cbn [bind]; rewrite zip_fin; change (3 + 1)%Z with (Z.of_nat 4); change 4%Z with (Z.of_nat 4); rewrite sort_view_rows; [rewrite rec_sort_fin; reflexivity|lia|].
        unfold fin2; apply Forall_forall; intros r Hr; apply in_map_iff in Hr; destruct Hr as (y & <- & Hy); unfold fin; rewrite map_length; apply (proj1 (Forall_forall _ _) (FM us)); exact Hy.
      * clear - HU; induction HU as [|r u ? ? [E _] _ IH]; constructor; assumption.
    + unfold x'; rewrite (Permutation_map (moved M b) HPm), lex_sort_perm, Zip; [reflexivity|symmetry; exact (Forall2_length _ _ _ HU)].
Qed.
Lemma parameterize_pair2 (s s' : surf_beh Exact) rows M b : Forall (fun r => length r = 3%nat) rows ->
  (forall u v q, sb_point s u v = Ok q -> unit_fin u /\ unit_fin v) ->
  (forall u v m, sb_ders s u v = Ok m -> Forall (fun r => length r = 3%nat) m) ->
  (forall r, In r rows -> surface_inversion s' (fin (affine M b r)) lit_1em5 lit_1em5 100 = surface_inversion s (fin r) lit_1em5 lit_1em5 100) ->
  let run := parameterize_surface s (mkData 3 (fin2 rows)) in let run' := parameterize_surface s' (mkData 3 (fin2 (map (affine M b) rows))) in
  (forall e, run = Err e -> run' = Err e) /\
  (forall out, run = Ok out -> exists x x', out = fin2 x /\ run' = Ok (fin2 x') /\ Permutation x' (map (moved M b) x)).
Proof.
  intros HF HR HR3 HI run run'.
  pose proof (mapM_fin2_map (fun point => surface_inversion s point lit_1em5 lit_1em5 100) (fun point => surface_inversion s' point lit_1em5 lit_1em5 100) (affine M b) rows HI) as EM.
  assert (FM : forall us : list (R * R), Forall (fun r => length r = 5%nat) (map (fun t => fst t ++ [fst (snd t); snd (snd t)]) (combine (map (affine M b) rows) us))).
  { intros us; apply Forall_forall; intros r Hr; apply in_map_iff in Hr; destruct Hr as ([a u] & <- & Hin); apply in_combine_l, in_map_iff in Hin; destruct Hin as (y & <- & _); reflexivity. }
  assert (Zip : forall us : list (R * R), length us = length rows -> map (fun t => fst t ++ [fst (snd t); snd (snd t)]) (combine (map (affine M b) rows) us) = map (moved M b) (map (fun t => fst t ++ [fst (snd t); snd (snd t)]) (combine rows us))).
  { clear - HF; induction HF as [|r rows L _ IH]; intros [|u us] Hl; try discriminate Hl; [reflexivity|]; cbn [map combine fst snd].
    rewrite moved_cons by exact L; rewrite IH by (injection Hl as Hl; exact Hl); reflexivity. }
  split.
  - intros e He; unfold run, run', parameterize_surface in *; cbn [dt_rows dt_cols] in *; rewrite EM.
    destruct (mapM _ (fin2 rows)) as [us| |] eqn:E; cbn [bind] in *; try exact He.
    exfalso; change (3 + 2)%Z with (Z.of_nat 5) in He; change 5%Z with (Z.of_nat 5) in He; rewrite sort_view_rows in He; [discriminate He|lia|].
    rewrite Forall_forall in *; intros r Hr; apply in_map_iff in Hr; destruct Hr as ([a x] & <- & Hab); apply in_combine_l in Hab; unfold fin2 in Hab; apply in_map_iff in Hab.
    destruct Hab as (y & <- & Hy); cbn [fst snd]; rewrite app_length; unfold fin; rewrite map_length, (HF y Hy); reflexivity.
  - intros out Ho; destruct (parameterize_surface_sorted s rows out HF HR HR3 Ho) as (us & x & HU & -> & HPm & _).
    set (x' := lex_sort [3%nat; 4%nat; 0%nat; 1%nat; 2%nat] (map (fun t => fst t ++ [fst (snd t); snd (snd t)]) (combine (map (affine M b) rows) us))).
    exists x, x'; split; [reflexivity|]; split.
    + unfold run', parameterize_surface; cbn [dt_rows dt_cols]; rewrite EM, (mapM_known2 _ rows us).
      * cbn [bind]; rewrite zip_fin2; change (3 + 2)%Z with (Z.of_nat 5); change 5%Z with (Z.of_nat 5); rewrite sort_view_rows; [rewrite rec_sort_fin; reflexivity|lia|].
        unfold fin2; apply Forall_forall; intros r Hr; apply in_map_iff in Hr; destruct Hr as (y & <- & Hy); unfold fin; rewrite map_length; apply (proj1 (Forall_forall _ _) (FM us)); exact Hy.
      * clear - HU; induction HU as [|r u ? ? [E _] _ IH]; constructor; assumption.
    + unfold x'; rewrite (Permutation_map (moved M b) HPm), lex_sort_perm, Zip; [reflexivity|symmetry; exact (Forall2_length _ _ _ HU)].
Qed.
Lemma ders3_unit (c : curve_obj Exact) u m o : derivatives3 c u o = Ok m -> exists r, u = Fin r /\ 0 <= r <= 1.
Proof.
  intros H; unfold derivatives3 in H; destruct (validate_knot u) eqn:E; [|discriminate H]; apply validate_unit in E; destruct E as (r & E & Hr); exists r; auto.
Qed.
Lemma parameterize_curve_moved p U P d rows M b : clamped (Z.of_nat p) (len P) U -> strict (Z.of_nat p) (len P) U -> kn U (Z.of_nat p) = 0 -> kn U (len P) = 1 -> (2 <= p)%nat ->
  Forall (fun row => length row = 3%nat) P -> Forall (fun r => length r = 3%nat) rows -> orthogonal M ->
  let run := parameterize_curve (beh_of_curve3 (curve_of (Z.of_nat p) U P d)) (mkData 3 (fin2 rows)) in
  let run' := parameterize_curve (beh_of_curve3 (curve_of (Z.of_nat p) U (map (affine M b) P) d)) (mkData 3 (fin2 (map (affine M b) rows))) in
  (forall e, run = Err e -> run' = Err e) /\
  (forall out, run = Ok out -> exists x x', out = fin2 x /\ run' = Ok (fin2 x') /\ Permutation x' (map (moved M b) x)).
Proof.
  intros HC HS H0 H1 Hp HF HR HM; apply parameterize_pair; [exact HR|intros u m; cbn [beh_of_curve3 cb_ders]; apply ders3_unit|].
  intros r Hr; apply curve_inversion_moved; try assumption; rewrite Forall_forall in HR; apply HR; exact Hr.
Qed.
Lemma parameterize_surface_moved p q nu nv U V P rows M b : clamped (Z.of_nat p) (Z.of_nat nu) U -> clamped (Z.of_nat q) (Z.of_nat nv) V ->
  strict (Z.of_nat p) (Z.of_nat nu) U -> strict (Z.of_nat q) (Z.of_nat nv) V ->
  kn U (Z.of_nat p) = 0 -> kn U (Z.of_nat nu) = 1 -> kn V (Z.of_nat q) = 0 -> kn V (Z.of_nat nv) = 1 -> (2 <= p)%nat -> (2 <= q)%nat ->
  Forall (fun row => length row = 3%nat) P -> length P = (nu * nv)%nat -> Forall (fun r => length r = 3%nat) rows -> orthogonal M ->
  let run := parameterize_surface (beh_of_surf (surf_of p q nu nv U V P)) (mkData 3 (fin2 rows)) in
  let run' := parameterize_surface (beh_of_surf (surf_of p q nu nv U V (map (affine M b) P))) (mkData 3 (fin2 (map (affine M b) rows))) in
  (forall e, run = Err e -> run' = Err e) /\
  (forall out, run = Ok out -> exists x x', out = fin2 x /\ run' = Ok (fin2 x') /\ Permutation x' (map (moved M b) x)).
Proof.
  intros CU CV SU SV U0 U1 V0 V1 Hp Hq HF HL HR HM; apply parameterize_pair2; [exact HR|intros u v w; cbn [beh_of_surf sb_point]; apply surf_point_unit|intros u v m; cbn [beh_of_surf sb_ders]; apply surf_derivatives_width|].
  intros r Hr; apply surface_inversion_moved; try assumption; rewrite Forall_forall in HR; apply HR; exact Hr.
Qed.
