(** Inversion on binary64 numbers with dot products of any kind: ranges and the
    parameterized data. *)
From Coq Require Import Reals Lra Lia ZArith List Bool Permutation Sorted Floats.
From Flocq Require Import Core.Core IEEE754.BinarySingleNaN IEEE754.PrimFloat.
From Verif Require Import Py PyLemmas Num ModelKnots ModelBasis ModelCurve ModelSurface ModelParam ModelDot ModelDotParam Spec SpecB64 SpecDot SpecDotParam
  ProofNum ProofBasis ProofCurve ProofCurve2 ProofParam ProofParam2 ProofParam3 ProofParam4 ProofFit7 ProofB64 ProofB64Basis ProofB64Span ProofB64Param ProofB64Sort ProofDot4 ProofDotParam.
Import ListNotations.
Open Scope R_scope.

Lemma nan_not x : isnan64 x <-> ~ number64 x.
Proof. unfold isnan64, number64; destruct (FloatOps.Prim2SF x); split; intros H; try discriminate H; try reflexivity; try (exfalso; apply H; discriminate); intros G; apply G; reflexivity. Qed.

Section Open64.
Variable dot : list Z -> list PrimFloat.float -> list PrimFloat.float -> PrimFloat.float.
Variable solve : Binary64 -> Binary64 -> Binary64 -> Binary64 -> Binary64 -> Binary64 -> res (Binary64 * Binary64).
Lemma nan_step64_dot : nan_dots64 dot -> forall site (du dv : Binary64) (a b st : list Binary64) (e1 : Binary64), length a = 3%nat -> length b = 3%nat -> isnan64 du \/ isnan64 dv ->
  np_bin nadd (vscale du a) (vscale dv b) = Ok st -> (norm (K := Binary64) dot site st <=? e1)%num = false.
Proof.
  intros HN site du dv a b st e1 La Lb Hn E; destruct a as [|a0 a]; [discriminate|]; destruct b as [|b0 b]; [discriminate|].
  unfold np_bin, vscale in E; cbn [map] in E.
  assert (EL : zlen (nmul du a0 :: map (nmul du) a) = zlen (nmul dv b0 :: map (nmul dv) b)).
  { unfold zlen; cbn [length] in *; rewrite !map_length; lia. }
  rewrite EL, Z.eqb_refl in E; injection E as <-; unfold vmap2; cbn [combine map fst snd].
  apply nan_leb, nan_sqrt, nan_not, HN; [reflexivity|]; intros F; inversion F as [|x l NX _ EX]; revert NX; apply nan_not, nan_add.
  destruct Hn as [G|G]; [left|right]; apply nan_mul; exact G.
Qed.
Lemma curve_range64_dot (c : curve_beh Binary64) P e1 e2 mi u : (2 * cb_count c - 1 <= 2 ^ 49)%Z ->
  curve_inversion_dot (K := Binary64) dot c P e1 e2 mi = Ok u -> (~ number64 u \/ unit64 u) /\ exists m, cb_ders c u = Ok m.
Proof.
  intros Hn H; split; [|exact (curve_result_evaluated_dot _ _ _ _ _ _ _ H)]; revert H.
  apply (curve_inversion_keeps_dot (K := Binary64) dot (fun u => ~ number64 u \/ unit64 u)).
  - intros j ui pt d1 d2 w x E _; unfold curve_newton_dot in E.
    destruct (np_sub pt P) as [r| |]; cbn [bind] in E; try discriminate.
    destruct (mm (K := Binary64) dot _ d1 r); cbn [bind] in E; try discriminate.
    destruct (mm (K := Binary64) dot _ d2 r); cbn [bind] in E; try discriminate.
    injection E as <-; apply clamp64.
  - intros w x E _; apply initial_guess_sample_dot in E; right; exact (in_samples64 _ _ Hn E).
Qed.
Lemma surf_newton_clamped64_dot n (s : surf_beh Binary64) P u v d u1 v1 : surf_newton_dot (K := Binary64) dot solve n s P u v d = Ok (u1, v1) ->
  (~ number64 u1 \/ unit64 u1) /\ (~ number64 v1 \/ unit64 v1).
Proof.
  unfold surf_newton_dot; intros H.
  destruct (surf_res s P u v) as [r| |]; cbn [bind] in H; try discriminate.
  repeat match type of H with (let* _ := mm _ ?t ?a ?b in _) = _ => destruct (mm (K := Binary64) dot t a b); cbn [bind] in H; try discriminate end.
  cbv zeta in H; destruct (solve _ _ _ _ _ _) as [dl| |]; cbn [bind] in H; try discriminate.
  injection H as <- <-; split; apply clamp64.
Qed.
Lemma surf_sample64_dot (s : surf_beh Binary64) P u v : (2 * sb_nu s - 1 <= 2 ^ 49)%Z -> (2 * sb_nv s - 1 <= 2 ^ 49)%Z ->
  initial_guess_surf_dot (K := Binary64) dot s P = Ok (u, v) -> unit64 u /\ unit64 v.
Proof.
  intros Hu Hv.
  assert (SA : forall n x i, (2 * n - 1 <= 2 ^ 49)%Z -> aget (samples (K := Binary64) (2 * n)) i = Ok x -> unit64 x).
  { intros n x i Hn E; apply aget_In in E; exact (in_samples64 _ _ Hn E). }
  unfold initial_guess_surf_dot; cbv zeta; intros H.
  destruct (aget (samples (2 * sb_nu s)) 0) as [u0| |] eqn:E0; cbn [bind] in H; try discriminate.
  destruct (aget (samples (2 * sb_nv s)) 0) as [v0| |] eqn:E1; cbn [bind] in H; try discriminate.
  match type of H with (let* _ := ?X in _) = _ => destruct X as [st| |] eqn:E end; cbn [bind] in H; try discriminate.
  injection H as <- <-.
  refine (for_range_pres (fun st : Binary64 * Binary64 * Binary64 => unit64 (snd (fst st)) /\ unit64 (snd st)) _ _ _ _ _ _ E _).
  - intros i st1 st2 E2 HS.
    refine (for_range_pres (fun st : Binary64 * Binary64 * Binary64 => unit64 (snd (fst st)) /\ unit64 (snd st)) _ _ _ _ _ _ E2 HS).
    intros j st3 st4 E3 HS3; unfold guess_step2_dot in E3.
    destruct (aget _ i) as [eu| |] eqn:Eu; cbn [bind] in E3; try discriminate.
    destruct (aget _ j) as [ev| |] eqn:Ev; cbn [bind] in E3; try discriminate.
    destruct (sb_point s eu ev) as [a| |]; cbn [bind] in E3; try discriminate.
    destruct (np_sub P a); cbn [bind] in E3; try discriminate.
    injection E3 as <-; match goal with |- context [if ?b then _ else _] => destruct b end; [|exact HS3]; cbn [fst snd]; split; [exact (SA _ _ _ Hu Eu)|exact (SA _ _ _ Hv Ev)].
  - cbn [fst snd]; split; [exact (SA _ _ _ Hu E0)|exact (SA _ _ _ Hv E1)].
Qed.
Lemma surf_range64_dot (s : surf_beh Binary64) P e1 e2 mi u v : (2 * sb_nu s - 1 <= 2 ^ 49)%Z -> (2 * sb_nv s - 1 <= 2 ^ 49)%Z ->
  surface_inversion_dot (K := Binary64) dot solve s P e1 e2 mi = Ok (u, v) ->
  ((~ number64 u \/ unit64 u) /\ (~ number64 v \/ unit64 v)) /\
  (nan_dots64 dot -> (forall u v q, sb_point s u v = Ok q -> number64 u /\ number64 v) ->
   (forall u v m, sb_ders s u v = Ok m -> Forall (fun r => length r = 3%nat) m) -> unit64 u /\ unit64 v).
Proof.
  intros Hu Hv; unfold surface_inversion_dot, surface_inversion_fuel_dot.
  destruct (initial_guess_surf_dot (K := Binary64) dot s P) as [[u0 v0]| |] eqn:E0; cbn [bind]; try discriminate.
  apply (surf_sample64_dot _ _ _ _ Hu Hv) in E0.
  assert (Done : forall a b, unit64 a /\ unit64 b -> ((~ number64 a \/ unit64 a) /\ (~ number64 b \/ unit64 b)) /\
    (nan_dots64 dot -> (forall u v q, sb_point s u v = Ok q -> number64 u /\ number64 v) ->
     (forall u v m, sb_ders s u v = Ok m -> Forall (fun r => length r = 3%nat) m) -> unit64 a /\ unit64 b)).
  { intros a b H; split; [split; right; apply H|intros _ _ _; exact H]. }
  destruct (get_surf_rows s u0 v0) as [d0| |] eqn:E1; cbn [bind]; try discriminate.
  destruct (surf_res s P u0 v0); cbn [bind]; try discriminate.
  destruct (_ <=? e1)%num; [intros H; injection H as <- <-; apply Done; exact E0|].
  destruct (surf_cos_dot (K := Binary64) dot _ _ (sr_u d0) _); cbn [bind]; try discriminate.
  destruct (surf_cos_dot (K := Binary64) dot _ _ (sr_v d0) _); cbn [bind]; try discriminate.
  destruct (_ && _); [intros H; injection H as <- <-; apply Done; exact E0|].
  assert (L0 : (forall u v m, sb_ders s u v = Ok m -> Forall (fun r => length r = 3%nat) m) -> length (sr_u d0) = 3%nat /\ length (sr_v d0) = 3%nat)
    by (intros HD; exact (surf_rows_3_any _ _ _ _ _ HD E1)); clear E0 E1.
  generalize (S (Z.to_nat (mi + 1))), 0%Z; intros f; revert u0 v0 d0 L0.
  induction f as [|f IH]; intros ui vi d L n; cbn [surf_loop_dot]; [discriminate|].
  destruct (surf_newton_dot (K := Binary64) dot solve _ s P ui vi d) as [[u1 v1]| |] eqn:EN; cbn [bind]; try discriminate.
  apply surf_newton_clamped64_dot in EN; destruct EN as [Nu Nv].
  assert (Fin : forall w, (~ number64 w \/ unit64 w) -> number64 w -> unit64 w) by (intros w [H|H] N; [contradiction|exact H]).
  destruct (np_bin nadd _ _) as [st| |] eqn:ES; cbn [bind]; try discriminate.
  destruct (norm (K := Binary64) dot [n; 13%Z] st <=? e1)%num eqn:EC.
  { intros H; injection H as <- <-; split; [split; assumption|]; intros HN HP HD; destruct (L HD) as (L1 & L2).
    assert (NN : ~ (isnan64 u1 \/ isnan64 v1)).
    { intros H; rewrite (nan_step64_dot HN [n; 13%Z] (u1 - ui)%num (v1 - vi)%num (sr_u d) (sr_v d) st e1 L1 L2) in EC; [discriminate| |exact ES].
      destruct H as [H|H]; [left|right]; apply nan_sub; exact H. }
    destruct (nan_or_number u1); [exfalso; apply NN; auto|]; destruct (nan_or_number v1); [exfalso; apply NN; auto|].
    split; apply Fin; assumption. }
  destruct (get_surf_rows s ui vi) as [d'| |] eqn:ED; cbn [bind]; try discriminate.
  destruct (surf_res s P u1 v1) eqn:ER; cbn [bind]; try discriminate.
  assert (Done1 : ((~ number64 u1 \/ unit64 u1) /\ (~ number64 v1 \/ unit64 v1)) /\
    (nan_dots64 dot -> (forall u v q, sb_point s u v = Ok q -> number64 u /\ number64 v) ->
     (forall u v m, sb_ders s u v = Ok m -> Forall (fun r => length r = 3%nat) m) -> unit64 u1 /\ unit64 v1)).
  { split; [split; assumption|]; intros HN HP HD.
    unfold surf_res in ER; destruct (sb_point s u1 v1) eqn:EP; cbn [bind] in ER; try discriminate.
    destruct (HP _ _ _ EP) as (M1 & M2); split; apply Fin; assumption. }
  match goal with |- (if ?b then _ else _) = _ -> _ => destruct b end; [intros H; injection H as <- <-; exact Done1|].
  destruct (surf_cos_dot (K := Binary64) dot _ _ (sr_u d') _); cbn [bind]; try discriminate.
  destruct (surf_cos_dot (K := Binary64) dot _ _ (sr_v d') _); cbn [bind]; try discriminate.
  destruct (_ && _); [intros H; injection H as <- <-; exact Done1|].
  destruct (mi <=? n)%Z; [intros H; injection H as <- <-; exact Done1|].
  apply IH; intros HD; exact (surf_rows_3_any _ _ _ _ _ HD ED).
Qed.
Lemma curve_sorted64_dot (c : curve_beh Binary64) (rows out : list (list PrimFloat.float)) :
  Forall (fun r => length r = 3%nat /\ Forall finite64 r) rows ->
  (forall u m, cb_ders c u = Ok m -> unit64 u) ->
  parameterize_curve_dot (K := Binary64) dot c (mkData 3 (rows : list (list Binary64))) = Ok (out : list (list Binary64)) ->
  exists us : list PrimFloat.float,
    Forall2 (fun (r : list PrimFloat.float) (u : PrimFloat.float) => curve_inversion_dot (K := Binary64) dot c (r : list Binary64) lit_1em5 lit_1em5 100 = Ok (u : Binary64) /\ unit64 u) rows us /\
    Permutation out (map (fun t => fst t ++ [snd t]) (combine rows us)) /\
    StronglySorted (fun a b => lex_le [3%nat; 0%nat; 1%nat; 2%nat] (values a) (values b)) out.
Proof.
  intros HF HR; unfold parameterize_curve_dot; cbn [dt_rows dt_cols].
  match goal with |- context [mapM ?f ?l] => destruct (mapM f l) as [us| |] eqn:E end; cbn [bind]; try discriminate.
  apply mapM_spec in E; change (3 + 1)%Z with (Z.of_nat 4); change 4%Z with (Z.of_nat 4).
  assert (HU : Forall2 (fun (r : list PrimFloat.float) (u : PrimFloat.float) => curve_inversion_dot (K := Binary64) dot c (r : list Binary64) lit_1em5 lit_1em5 100 = Ok (u : Binary64) /\ unit64 u) rows us).
  { clear HF; induction E as [|r u rows us E1 E2 IH]; constructor; [|exact IH]; split; [exact E1|].
    destruct (curve_result_evaluated_dot _ _ _ _ _ _ _ E1) as (m & Em); exact (HR _ _ Em). }
  rewrite sort_view_rows; [|lia|].
  - intros H; injection H as <-; exists us; split; [exact HU|]; split; [exact (@rec_sort_perm Binary64 _ _)|].
    refine (sort_sorted64 _ _ _); apply Forall_forall; intros r Hr; apply in_map_iff in Hr; destruct Hr as ([a b] & <- & Hab).
    cbn [fst snd]; apply Forall_app; split.
    + apply in_combine_l in Hab; exact (proj2 (proj1 (Forall_forall _ _) HF _ Hab)).
    + apply in_combine_r in Hab; constructor; [|constructor].
      assert (G : Forall unit64 us) by (clear -HU; induction HU as [|? ? ? ? (_ & Hh)]; constructor; assumption).
      exact (proj1 (proj1 (Forall_forall _ _) G _ Hab)).
  - apply Forall_forall; intros r Hr; apply in_map_iff in Hr; destruct Hr as ([a b] & <- & Hab).
    apply in_combine_l in Hab; pose proof (proj1 (proj1 (Forall_forall _ _) HF _ Hab)) as L.
    destruct a as [|? [|? [|? [|? ?]]]]; try discriminate L; reflexivity.
Qed.
Lemma surface_sorted64_dot (s : surf_beh Binary64) (rows out : list (list PrimFloat.float)) : nan_dots64 dot ->
  (2 * sb_nu s - 1 <= 2 ^ 49)%Z -> (2 * sb_nv s - 1 <= 2 ^ 49)%Z ->
  Forall (fun r => length r = 3%nat /\ Forall finite64 r) rows ->
  (forall u v q, sb_point s u v = Ok q -> number64 u /\ number64 v) ->
  (forall u v m, sb_ders s u v = Ok m -> Forall (fun r => length r = 3%nat) m) ->
  parameterize_surface_dot (K := Binary64) dot solve s (mkData 3 (rows : list (list Binary64))) = Ok (out : list (list Binary64)) ->
  exists uvs : list (PrimFloat.float * PrimFloat.float),
    Forall2 (fun (r : list PrimFloat.float) (uv : PrimFloat.float * PrimFloat.float) =>
      surface_inversion_dot (K := Binary64) dot solve s (r : list Binary64) lit_1em5 lit_1em5 100 = Ok (uv : Binary64 * Binary64) /\ unit64 (fst uv) /\ unit64 (snd uv)) rows uvs /\
    Permutation out (map (fun t => fst t ++ [fst (snd t); snd (snd t)]) (combine rows uvs)) /\
    StronglySorted (fun a b => lex_le [3%nat; 4%nat; 0%nat; 1%nat; 2%nat] (values a) (values b)) out.
Proof.
  intros HN Hu Hv HF HP HD; unfold parameterize_surface_dot; cbn [dt_rows dt_cols].
  match goal with |- context [mapM ?f ?l] => destruct (mapM f l) as [us| |] eqn:E end; cbn [bind]; try discriminate.
  apply mapM_spec in E; change (3 + 2)%Z with (Z.of_nat 5); change 5%Z with (Z.of_nat 5).
  assert (HU : Forall2 (fun (r : list PrimFloat.float) (uv : PrimFloat.float * PrimFloat.float) =>
      surface_inversion_dot (K := Binary64) dot solve s (r : list Binary64) lit_1em5 lit_1em5 100 = Ok (uv : Binary64 * Binary64) /\ unit64 (fst uv) /\ unit64 (snd uv)) rows us).
  { clear HF; induction E as [|r [u v] rows us E1 E2 IH]; constructor; [|exact IH]; split; [exact E1|].
    exact (proj2 (surf_range64_dot s r _ _ _ u v Hu Hv E1) HN HP HD). }
  rewrite sort_view_rows; [|lia|].
  - intros H; injection H as <-; exists us; split; [exact HU|]; split; [exact (@rec_sort_perm Binary64 _ _)|].
    refine (sort_sorted64 _ _ _); apply Forall_forall; intros r Hr; apply in_map_iff in Hr; destruct Hr as ([a b] & <- & Hab).
    cbn [fst snd]; apply Forall_app; split.
    + apply in_combine_l in Hab; exact (proj2 (proj1 (Forall_forall _ _) HF _ Hab)).
    + apply in_combine_r in Hab.
      assert (G : Forall (fun uv => unit64 (fst uv) /\ unit64 (snd uv)) us) by (clear -HU; induction HU as [|? ? ? ? (_ & Hh)]; constructor; assumption).
      destruct (proj1 (Forall_forall _ _) G _ Hab) as ((F1 & _) & (F2 & _)); repeat constructor; assumption.
  - apply Forall_forall; intros r Hr; apply in_map_iff in Hr; destruct Hr as ([a b] & <- & Hab).
    apply in_combine_l in Hab; pose proof (proj1 (proj1 (Forall_forall _ _) HF _ Hab)) as L.
    destruct a as [|? [|? [|? [|? ?]]]]; try discriminate L; reflexivity.
Qed.
End Open64.
