(** C91, C92: single basis functions and the partition-of-unity check of the
    fits on IEEE 754 doubles. *)
From Coq Require Import Reals Lra Lia ZArith List Floats Bool.
From Verif Require Import Py PyLemmas Num ModelKnots ModelBasis ModelCurve ModelSurface ModelInit ModelFit Spec SpecB64 MathKnots
  ProofB64 ProofB64One3 ProofB64Unity ProofB64Unity2 ProofB64Unity3 PropB64 PropFit Examples.
Import ListNotations.
Open Scope R_scope.

(** ** C91: one_basis_function *)
(** For knots in [0,1], distinct ones at least 2^-500 apart: the value at any
    finite double is finite, not negative, 0 where the basis function is 0, 1 at the
    ends, and within 7 p 2^-53 of the exact value, relative to it (plus p(p+1) 2^-572). *)
Theorem C91_one_basis : forall (U : list PrimFloat.float) p n, within 0 1 U -> tight (Z.of_nat p) n (values U) ->
  (forall j, kn (values U) j < kn (values U) (j + 1) -> / 2 ^ 500 <= kn (values U) (j + 1) - kn (values U) j) ->
  INR p <= 2 ^ 40 -> forall i (x : PrimFloat.float), (0 <= i < n)%Z -> finite64 x ->
  let b := bspline (values U) p i (value x) in
  exists y : PrimFloat.float, one_basis_function (K := Binary64) (Z.of_nat p) U i x = Ok y /\ finite64 y /\ 0 <= value y /\
    (b = 0 -> value y = 0) /\
    ((i = 0%Z /\ value x = kn (values U) 0) \/ (i = (n - 1)%Z /\ value x = last (values U) 0) -> value y = 1) /\
    Rabs (value y - b) <= 7 * INR p * ulp64 * b + INR p * (INR p + 1) / 2 ^ 572.
Proof. exact one_basis_b64. Qed.
Print Assumptions C91_one_basis.
(** An infinite or NaN parameter gives 0. *)
Theorem C91_not_finite : forall (U : list PrimFloat.float) p n, within 0 1 U -> tight (Z.of_nat p) n (values U) ->
  forall i (x : PrimFloat.float), (0 <= i < n)%Z -> ~ finite64 x ->
  one_basis_function (K := Binary64) (Z.of_nat p) U i x = Ok 0%float.
Proof. exact one_basis_special. Qed.
Print Assumptions C91_not_finite.
Lemma gap500 r : / 1000 <= r -> / 2 ^ 500 <= r.
Proof.
  intros H; apply Rle_trans with (2 := H); apply Rinv_le_contravar; [lra|].
  apply Rle_trans with (2 ^ 10); [cbn [pow]; lra|apply Rle_pow; [lra|lia]].
Qed.
Ltac gaps_eval n := intros j;
  destruct (Z.lt_ge_cases j 0) as [Hj|Hj];
  [unfold kn; replace (Z.to_nat j) with 0%nat by lia; replace (Z.to_nat (j + 1)) with 0%nat by lia; intros; lra|];
  destruct (Z.lt_ge_cases j n) as [Hj'|Hj'];
  [|unfold kn; rewrite !nth_overflow by (cbn [length]; lia); intros; lra];
  intros H; apply gap500; revert H;
  repeat (destruct (Z.eq_dec j 0) as [->|]; [kn_eval; lra|]; destruct (Z.eq_dec j 1) as [->|]; [kn_eval; lra|];
    destruct (Z.eq_dec j 2) as [->|]; [kn_eval; lra|]; destruct (Z.eq_dec j 3) as [->|]; [kn_eval; lra|];
    destruct (Z.eq_dec j 4) as [->|]; [kn_eval; lra|]; destruct (Z.eq_dec j 5) as [->|]; [kn_eval; lra|];
    destruct (Z.eq_dec j 6) as [->|]; [kn_eval; lra|]; destruct (Z.eq_dec j 7) as [->|]; [kn_eval; lra|]; exfalso; lia).
Lemma fU_gaps : forall j, kn (values fU) j < kn (values fU) (j + 1) -> / 2 ^ 500 <= kn (values fU) (j + 1) - kn (values fU) j.
Proof. rewrite fU_values; gaps_eval 8%Z. Qed.
Example C91_example : within 0 1 fU /\ tight 2 5 (values fU) /\
  (forall j, kn (values fU) j < kn (values fU) (j + 1) -> / 2 ^ 500 <= kn (values fU) (j + 1) - kn (values fU) j) /\ INR 2 <= 2 ^ 40 /\
  finite64 0.5%float /\ ~ finite64 infinity /\ ~ finite64 nan /\
  map (fun i => one_basis_function (K := Binary64) 2 fU i 0.5%float) [0; 1; 2; 3; 4]%Z =
    [Ok 0; Ok 0.066666666666666666; Ok 0.71111111111111103; Ok 0.22222222222222221; Ok 0]%float /\
  map (fun i => one_basis_function (K := Binary64) 2 fU i 1%float) [0; 1; 2; 3; 4]%Z = [Ok 0; Ok 0; Ok 0; Ok 0; Ok 1]%float /\
  map (fun x => one_basis_function (K := Binary64) 2 fU 4 x) [infinity; nan; 1.5]%float = [Ok 0; Ok 0; Ok 0]%float.
Proof.
  split; [exact fU_within|]; split; [split; [exact fU_clamped|rewrite fU_values; split; kn_eval; lra]|]; split; [exact fU_gaps|].
  split; [cbn; lra|]; split; [exact I|]; split; [exact (fun x => x)|]; split; [exact (fun x => x)|].
  split; [vm_compute; reflexivity|]; split; vm_compute; reflexivity.
Qed.
(** The computed values do not add up to 1. *)
Theorem C91_unity_refuted : exists (U : list PrimFloat.float) (x : PrimFloat.float) ys, within 0 1 U /\ tight 2 5 (values U) /\
  kn (values U) 2 <= value x <= kn (values U) 5 /\
  map (fun i => one_basis_function (K := Binary64) 2 U i x) [0; 1; 2; 3; 4]%Z = map Ok ys /\
  value (fold_left PrimFloat.add ys 0%float) < 1.
Proof.
  exists fU, 0.5%float; eexists; split; [exact fU_within|]; split; [split; [exact fU_clamped|rewrite fU_values; split; kn_eval; lra]|].
  split; [rewrite fU_values; kn_eval; val_eval; lra|].
  split; [vm_compute; instantiate (1 := [0; 0.066666666666666666; 0.71111111111111103; 0.22222222222222221; 0]%float); reflexivity|].
  cbn [fold_left]; val_eval; lra.
Qed.
Print Assumptions C91_unity_refuted.
(** With knots 2^-1030 apart the second function is NaN at 0 and infinite nearby. *)
Theorem C91_gap_refuted : exists U : list PrimFloat.float, U = [0; 0; 0; 0x1p-1030; 0x1p-1029; 1; 1; 1]%float /\
  within 0 1 U /\ tight 2 5 (values U) /\
  one_basis_function (K := Binary64) 2 U 1 0%float = Ok nan /\ one_basis_function (K := Binary64) 2 U 1 0x1p-1031%float = Ok infinity.
Proof.
  eexists; split; [reflexivity|].
  assert (L : forall x y : PrimFloat.float, finite64 x -> finite64 y -> (x <? y)%float = true -> value x < value y).
  { intros x y Fx Fy H; rewrite (ltb64 x y Fx Fy) in H; revert H; case Raux.Rlt_bool_spec; [auto|discriminate]. }
  assert (V : values [0; 0; 0; 0x1p-1030; 0x1p-1029; 1; 1; 1]%float = [0; 0; 0; value 0x1p-1030%float; value 0x1p-1029%float; 1; 1; 1]).
  { unfold values; cbn [map]; repeat f_equal; val_eval; lra. }
  assert (B0 : 0 < value 0x1p-1030%float).
  { replace 0 with (value 0%float) by (val_eval; lra); apply L; vm_compute; exact I || reflexivity. }
  assert (B1 : value 0x1p-1030%float < value 0x1p-1029%float) by (apply L; vm_compute; exact I || reflexivity).
  assert (B2 : value 0x1p-1029%float < 1).
  { replace 1 with (value 1%float) by (val_eval; lra); apply L; vm_compute; exact I || reflexivity. }
  split; [|split; [|split; vm_compute; reflexivity]].
  - unfold within; repeat (apply Forall_cons; [split; [vm_compute; exact I|]|]); try apply Forall_nil; try lra; val_eval; lra.
  - rewrite V; generalize dependent (value 0x1p-1030%float); generalize dependent (value 0x1p-1029%float); intros b B2 a _ B0 B1.
    split; [solve_clamped|split; kn_eval; lra].
Qed.
Print Assumptions C91_gap_refuted.

(** ** C92: the partition-of-unity check of the fits *)
(** The check of a curve fit counts stray parameters: outside the domain,
    infinite or NaN.  More than 12 in a million: ValueError (one among up to 83333
    rows is enough).  At most 8 in a million: the check passes, and the outcome is
    the solver's. *)
Theorem C92_curve : forall sv (c : curve_obj Binary64) p (U : list PrimFloat.float) (P rows : list (list PrimFloat.float)),
  within 0 1 U -> tight (Z.of_nat p) (len P) (values U) ->
  (forall j, kn (values U) j < kn (values U) (j + 1) -> / 2 ^ 500 <= kn (values U) (j + 1) - kn (values U) j) ->
  INR (length P) <= 2 ^ 30 -> INR (length rows) <= 2 ^ 30 ->
  c_degree c = Some (Z.of_nat p) -> c_ctrl c = Some P -> c_kv c = Some U ->
  Forall (fun r => length r = 3%nat) P -> Forall (fun r => length r = 4%nat) rows ->
  let strays := INR (curve_strays64 (kn (values U) (Z.of_nat p)) (kn (values U) (len P)) rows) in
  (12/1000000 * INR (length rows) < strays -> forall set, single_fit_curve set sv c rows = Err ValueError) /\
  (strays <= 8/1000000 * INR (length rows) ->
    (forall set e, (forall M, sv_cond sv M = Err e) -> single_fit_curve set sv c rows = Err e) /\
    ((forall M, exists x, sv_cond sv M = Ok x) -> (forall n A b, exists y, sv_lstsq sv (Z.of_nat n) A b = Ok y /\ length y = n) ->
     exists P', single_fit_curve store_ctrl sv c rows = Ok (mkCurve (c_degree c) (Some P') (c_kv c) (c_dim c)) /\
       length P' = length P /\ Forall (fun r => length r = 3%nat) P' /\ nth 0 P' [] = nth 0 P [] /\ last P' [] = last P [])).
Proof. exact single_fit_curve_b64. Qed.
Print Assumptions C92_curve.

(** The order in which the sums are computed does not matter (the model adds
    from left to right, numpy in blocks). *)
Theorem C92_any_order : forall p (U : list PrimFloat.float) (P rows : list (list PrimFloat.float)),
  within 0 1 U -> tight (Z.of_nat p) (len P) (values U) ->
  (forall j, kn (values U) j < kn (values U) (j + 1) -> / 2 ^ 500 <= kn (values U) (j + 1) - kn (values U) j) ->
  INR (length P) <= 2 ^ 30 -> INR (length rows) <= 2 ^ 30 ->
  let strays := INR (curve_strays64 (kn (values U) (Z.of_nat p)) (kn (values U) (len P)) rows) in
  exists N, curve_matrix (K := Binary64) (Z.of_nat p) P U (map (fun r => nth 3 r 0%float) rows) (len rows) = Ok N /\
  forall sums total, Forall2 added64 N sums -> added64 sums total ->
  (strays <= 8/1000000 * INR (length rows) -> isclose (total : Binary64) (ofZ (len rows)) = true) /\
  (12/1000000 * INR (length rows) < strays -> isclose (total : Binary64) (ofZ (len rows)) = false).
Proof. exact curve_any_order. Qed.
Print Assumptions C92_any_order.

Theorem C92_surface : forall sv p q nu nv (U V : list PrimFloat.float) (P rows : list (list PrimFloat.float)),
  within 0 1 U -> within 0 1 V -> tight (Z.of_nat p) (Z.of_nat nu) (values U) -> tight (Z.of_nat q) (Z.of_nat nv) (values V) ->
  (forall j, kn (values U) j < kn (values U) (j + 1) -> / 2 ^ 500 <= kn (values U) (j + 1) - kn (values U) j) ->
  (forall j, kn (values V) j < kn (values V) (j + 1) -> / 2 ^ 500 <= kn (values V) (j + 1) - kn (values V) j) ->
  length P = (nu * nv)%nat -> INR (length P) <= 2 ^ 30 -> INR (length rows) <= 2 ^ 30 ->
  Forall (fun r => length r = 3%nat) P -> Forall (fun r => length r = 5%nat) rows ->
  let strays := INR (surf_strays64 (kn (values U) (Z.of_nat p)) (kn (values U) (Z.of_nat nu)) (kn (values V) (Z.of_nat q)) (kn (values V) (Z.of_nat nv)) rows) in
  let run := single_fit_surface sv (mkSurf (K := Binary64) (Z.of_nat p) (Z.of_nat q) (Z.of_nat nu) (Z.of_nat nv) P U V) rows in
  (12/1000000 * INR (length rows) < strays -> run = Err ValueError) /\
  (strays <= 8/1000000 * INR (length rows) ->
    (forall e, (forall M, sv_cond sv M = Err e) -> run = Err e) /\
    ((forall M, exists x, sv_cond sv M = Ok x) -> (forall n A b, exists y, sv_lstsq sv (Z.of_nat n) A b = Ok y /\ length y = n) ->
     exists P', run = Ok (mkSurf (K := Binary64) (Z.of_nat p) (Z.of_nat q) (Z.of_nat nu) (Z.of_nat nv) P' U V) /\
       length P' = length P /\ Forall (fun r => length r = 3%nat) P' /\
       forall i j, (i < nu)%nat -> (j < nv)%nat -> i = 0%nat \/ i = (nu - 1)%nat \/ j = 0%nat \/ j = (nv - 1)%nat ->
         nth (i * nv + j) P' [] = nth (i * nv + j) P [])).
Proof. exact single_fit_surface_b64. Qed.
Print Assumptions C92_surface.

Definition fz : @solver Binary64 := mkSolver (K := Binary64) (fun _ => Ok 1%float) (fun n _ _ => Ok (repeat 0.5%float (Z.to_nat n))).
Definition frows : list (list PrimFloat.float) := [[0; 0; 0; 0]; [1; 1; 0; 0.3]; [3; 1; 0; 0.7]; [6; 0; 0; 1]]%float.
Definition fcurve : curve_obj Binary64 := mkCurve (K := Binary64) (Some 2%Z) (Some fP) (Some fU) 3.
Lemma stray_no (a b : R) x : finite64 x -> a <= value x <= b -> stray64 a b x = false.
Proof.
  unfold finite64, stray64; destruct (FloatOps.Prim2SF x); try contradiction; intros _ H;
    (destruct (Rlt_dec _ _); [lra|]; destruct (Rlt_dec _ _); [lra|reflexivity]).
Qed.
Lemma stray_yes (a b : R) x : b < value x -> stray64 a b x = true.
Proof.
  unfold stray64; destruct (FloatOps.Prim2SF x); try reflexivity; intros H;
    (destruct (Rlt_dec _ _); [reflexivity|]; destruct (Rlt_dec _ _); [reflexivity|contradiction]).
Qed.
Lemma frows_strays x : curve_strays64 0 1 ([0; 0; 0; x]%float :: frows) = if stray64 0 1 x then 1%nat else 0%nat.
Proof.
  unfold curve_strays64, frows; cbn [filter nth].
  rewrite (stray_no 0 1 0%float), (stray_no 0 1 0.3%float), (stray_no 0 1 0.7%float), (stray_no 0 1 1%float)
    by (first [exact I|val_eval; lra]); destruct (stray64 0 1 x); reflexivity.
Qed.
(** With a solver that always answers 0.5: the interior control points become
    0.5, the ends stay; one parameter that is 1.5, or NaN, makes the fit fail. *)
Example C92_example : within 0 1 fU /\ tight 2 (len fP) (values fU) /\
  (forall j, kn (values fU) j < kn (values fU) (j + 1) -> / 2 ^ 500 <= kn (values fU) (j + 1) - kn (values fU) j) /\
  INR (length fP) <= 2 ^ 30 /\ Forall (fun r => length r = 3%nat) fP /\ Forall (fun r => length r = 4%nat) frows /\
  (forall M, exists x, sv_cond fz M = Ok x) /\ (forall n A b, exists y, sv_lstsq fz (Z.of_nat n) A b = Ok y /\ length y = n) /\
  kn (values fU) 2 = 0 /\ kn (values fU) (len fP) = 1 /\
  curve_strays64 0 1 ([0; 0; 0; 0.5]%float :: frows) = 0%nat /\ curve_strays64 0 1 ([0; 0; 0; 1.5]%float :: frows) = 1%nat /\
  curve_strays64 0 1 ([0; 0; 0; nan]%float :: frows) = 1%nat /\
  match single_fit_curve store_ctrl fz fcurve ([0; 0; 0; 0.5]%float :: frows) with Ok c => c_ctrl c | _ => None end =
    Some [[0; 0; 0]; [0.5; 0.5; 0.5]; [0.5; 0.5; 0.5]; [0.5; 0.5; 0.5]; [6; 0; 0]]%float /\
  map (fun x => match single_fit_curve store_ctrl fz fcurve ([0; 0; 0; x]%float :: frows) with Err ValueError => true | _ => false end) [1.5; nan; -0x1p-1074]%float
    = [true; true; true].
Proof.
  split; [exact fU_within|]; split; [split; [exact fU_clamped|rewrite fU_values; split; kn_eval; lra]|]; split; [exact fU_gaps|].
  split; [cbn; lra|]; split; [repeat (apply Forall_cons; [reflexivity|]); apply Forall_nil|]; split; [repeat (apply Forall_cons; [reflexivity|]); apply Forall_nil|].
  split; [intros M; eexists; reflexivity|]; split; [intros n A b; eexists; split; [reflexivity|rewrite repeat_length; lia]|].
  split; [rewrite fU_values; kn_eval; lra|]; split; [rewrite fU_values; kn_eval; lra|].
  split; [rewrite frows_strays, stray_no; [reflexivity|exact I|val_eval; lra]|].
  split; [rewrite frows_strays, stray_yes; [reflexivity|val_eval; lra]|].
  split; [rewrite frows_strays; reflexivity|].
  split; vm_compute; reflexivity.
Qed.
