(** C79-C83: the evaluation algorithms on IEEE 754 doubles. *)
From Coq Require Import Reals Lra Lia ZArith List Floats.
From Verif Require Import Py PyLemmas Num ModelKnots ModelBasis ModelCurve ModelSurface Spec SpecB64 MathKnots
  ProofB64Basis ProofB64Span ProofB64Curve ProofB64Surface ProofB64Knots ProofB64Unit ProofB64Uniform ProofB64Sum ProofB64Half Examples.
Import ListNotations.
Open Scope R_scope.

(** Example data: degree 2, five control points; and degree 1, three. *)
Definition fU : list PrimFloat.float := [0; 0; 0; 0.25; 0.625; 1; 1; 1]%float.
Definition fV : list PrimFloat.float := [0; 0; 0.375; 1; 1]%float.
Definition fP : list (list PrimFloat.float) := [[0; 0; 0]; [1; 2; 0]; [3; 1; -1]; [4; 3; 0.5]; [6; 0; 0]]%float.
Definition fQ : list (list PrimFloat.float) := flat_map (fun r => [r; map (fun c => (c + 0.5)%float) r; map (fun c => (c - 3)%float) r]) fP.
Ltac val_eval := unfold value;
  repeat match goal with |- context [FloatOps.Prim2SF ?x] =>
    let y := eval vm_compute in (FloatOps.Prim2SF x) in
    replace (FloatOps.Prim2SF x) with y by (vm_compute; reflexivity) end;
  unfold powerRZ;
  repeat match goal with |- context [Pos.to_nat ?x] => let n := eval vm_compute in (Pos.to_nat x) in change (Pos.to_nat x) with n end.
Ltac within_eval := repeat (apply Forall_cons; [split; [vm_compute; exact I|val_eval; lra]|]); apply Forall_nil.
Lemma fU_values : values fU = [0; 0; 0; 1/4; 5/8; 1; 1; 1].
Proof. unfold values, fU; cbn [map]; repeat f_equal; val_eval; lra. Qed.
Lemma fV_values : values fV = [0; 0; 3/8; 1; 1].
Proof. unfold values, fV; cbn [map]; repeat f_equal; val_eval; lra. Qed.
Lemma fU_within : within 0 1 fU.
Proof. within_eval. Qed.
Lemma fV_within : within 0 1 fV.
Proof. within_eval. Qed.
Lemma fU_clamped : clamped 2 5 (values fU).
Proof. rewrite fU_values; solve_clamped. Qed.
Lemma fV_clamped : clamped 1 3 (values fV).
Proof. rewrite fV_values; solve_clamped. Qed.
Lemma gap_ok r : / 1000 <= r -> / 2 ^ 1000 <= r.
Proof.
  intros H; apply Rle_trans with (2 := H); apply Rinv_le_contravar; [lra|].
  apply Rle_trans with (2 ^ 10); [cbn [pow]; lra|apply Rle_pow; [lra|lia]].
Qed.
Lemma fP_within : Forall (fun row => length row = 3%nat /\ within (- 6) 6 row) fP.
Proof. repeat (apply Forall_cons; [split; [reflexivity|within_eval]|]); apply Forall_nil. Qed.
Lemma fQ_within : Forall (fun row => length row = 3%nat /\ within (- 7) 7 row) fQ.
Proof. unfold fQ, fP; cbn [flat_map map app]; repeat (apply Forall_cons; [split; [reflexivity|within_eval]|]); apply Forall_nil. Qed.
Lemma small_pow a : a <= 1000 -> a <= 2 ^ 890 /\ a <= 2 ^ 900.
Proof.
  intros H; assert (1000 <= 2 ^ 10) by (cbn [pow]; lra).
  assert (2 ^ 10 <= 2 ^ 890) by (apply Rle_pow; [lra|lia]); assert (2 ^ 10 <= 2 ^ 900) by (apply Rle_pow; [lra|lia]); lra.
Qed.

(** ** C79: the span search.  [T] is the tolerance at the end of the domain. *)
Theorem C79_span : forall p n (x : Binary64) (U : list PrimFloat.float),
  finite64 x -> Forall finite64 U -> knots_for p n (values U) -> kn (values U) p <= value x <= kn (values U) n ->
  Rabs (value x) <= 2 ^ 1000 -> Rabs (kn (values U) n) <= 2 ^ 1000 ->
  let T := 1 / 100000000 + 1 / 1000000 * Rabs (kn (values U) n) in
  exists s, find_span n p x U = Ok s /\ (p <= s <= n - 1)%Z /\
    (s = (n - 1)%Z /\ kn (values U) n - value x <= T + 8 * ulp64 * T \/
     kn (values U) s <= value x <= kn (values U) (s + 1) /\ T - 8 * ulp64 * T < kn (values U) n - value x).
Proof. exact find_span_b64. Qed.
Print Assumptions C79_span.
(** Outside a thin band around the tolerance, rounding changes nothing at all. *)
Theorem C79_same_as_exact : forall n p (x : Binary64) (U : list PrimFloat.float),
  finite64 x -> Forall finite64 U -> (0 <= n < len U)%Z ->
  Rabs (value x) <= 2 ^ 1000 -> Rabs (kn (values U) n) <= 2 ^ 1000 ->
  let T := 1 / 100000000 + 1 / 1000000 * Rabs (kn (values U) n) in
  (Rabs (value x - kn (values U) n) <= T - 8 * ulp64 * T \/ T + 8 * ulp64 * T < Rabs (value x - kn (values U) n)) ->
  find_span n p x U = find_span n p (Fin (value x) : Exact) (fin (values U)).
Proof. exact find_span_values. Qed.
Print Assumptions C79_same_as_exact.
(** The probes of the bisection: int((low + high) / 2) on doubles is integer division,
    which the model uses. *)
Theorem C79_probes : forall low high, (0 <= low + high < 2 ^ 53 - 1)%Z ->
  ntrunc ((ofZ (low + high) : Binary64) / (ofZ 2 : Binary64))%num = Some (Z.quot (low + high) 2) /\
  (if (low + high) mod 2 =? 0 then ntrunc ((ofZ (low + high) : Binary64) / (ofZ 2 : Binary64))%num else ntrunc ((ofZ (low + high + 1) : Binary64) / (ofZ 2 : Binary64))%num)%Z = Some (first_mid low high).
Proof. exact probes64. Qed.
Print Assumptions C79_probes.
Example C79_probes_example : first_mid 2 5 = 4%Z /\ Z.quot (2 + 5) 2 = 3%Z.
Proof. split; reflexivity. Qed.
Example C79_example : finite64 0.5%float /\ Forall finite64 fU /\ knots_for 2 5 (values fU) /\
  kn (values fU) 2 <= value 0.5%float <= kn (values fU) 5 /\ find_span 5 2 (0.5%float : Binary64) fU = Ok 3%Z.
Proof.
  split; [exact I|]; split; [exact (within_finite _ _ _ fU_within)|]; split; [apply fU_clamped|].
  split; [rewrite fU_values; kn_eval; val_eval; lra|vm_compute; reflexivity].
Qed.

(** ** C80: the basis functions, on a span no narrower than 2^-1000. *)
Theorem C80_basis : forall (U : list PrimFloat.float) s (x : Binary64) p,
  within 0 1 U -> nondecreasing (values U) -> finite64 x ->
  kn (values U) s <= value x <= kn (values U) (s + 1) -> / 2 ^ 1000 <= kn (values U) (s + 1) - kn (values U) s ->
  (Z.of_nat p - 1 <= s)%Z -> (0 <= s)%Z -> (s + Z.of_nat p < len U)%Z -> (s + 1 < len U)%Z -> INR p <= 2 ^ 40 ->
  exists B : list PrimFloat.float, basis_functions s x (Z.of_nat p) U = Ok (B : list Binary64) /\ length B = S p /\
    Forall (fun b => finite64 b /\ 0 <= value b) B /\
    error1 (values B) (map (fun r => piece (values U) s p (s - Z.of_nat p + Z.of_nat r) (value x)) (seq 0 (S p)))
      <= 8 * INR p * ulp64 /\
    Rabs (fold_right Rplus 0 (values B) - 1) <= 8 * INR p * ulp64.
Proof. exact basis_functions_sum_b64. Qed.
Print Assumptions C80_basis.
Example C80_example : within 0 1 fU /\ nondecreasing (values fU) /\ finite64 0.5%float /\
  kn (values fU) 3 <= value 0.5%float <= kn (values fU) (3 + 1) /\ / 2 ^ 1000 <= kn (values fU) (3 + 1) - kn (values fU) 3.
Proof.
  split; [exact fU_within|]; split; [apply fU_clamped|]; split; [exact I|]; rewrite fU_values.
  split; [kn_eval; val_eval; lra|apply gap_ok; kn_eval; lra].
Qed.
(** On narrower spans the results need not be numbers, for accepted knots. *)
Theorem C80_narrow_span_refuted : exists (U : list PrimFloat.float) (s : Z),
  within 0 1 U /\ check_knot_vector 1 (NdArray (U : list Binary64)) 3 = Ok true /\
  find_span 3 1 (0%float : Binary64) U = Ok s /\ kn (values U) s < kn (values U) (s + 1) /\
  basis_functions s (0%float : Binary64) 1 U = Ok ([infinity; nan] : list Binary64).
Proof.
  exists [0; 0; 0x0.0000000000001p-1022; 1; 1]%float, 1%Z.
  split; [within_eval|].
  split; [vm_compute; reflexivity|]; split; [vm_compute; reflexivity|]; split; [|vm_compute; reflexivity].
  unfold values; cbn [map]; kn_eval; val_eval; lra.
Qed.
Print Assumptions C80_narrow_span_refuted.
(** The sum is not exactly 1. *)
Theorem C80_exact_sum_refuted : exists (U : list PrimFloat.float) (s : Z) (B : list PrimFloat.float),
  check_knot_vector 1 (NdArray (U : list Binary64)) 3 = Ok true /\ find_span 3 1 (0%float : Binary64) U = Ok s /\
  basis_functions s (0%float : Binary64) 1 U = Ok (B : list Binary64) /\ fold_right Rplus 0 (values B) < 1.
Proof.
  exists [0; 0; 0x1.70a3d70a3d70ap-4; 1; 1]%float, 1%Z, [0x1.fffffffffffffp-1; 0]%float.
  split; [vm_compute; reflexivity|]; split; [vm_compute; reflexivity|]; split; [vm_compute; reflexivity|].
  unfold values; cbn [map fold_right]; val_eval; lra.
Qed.
Print Assumptions C80_exact_sum_refuted.

(** ** C81: curve points. *)
Theorem C81_curve : forall p (U : list PrimFloat.float) P d (x : Binary64) M,
  within 0 1 U -> clamped (Z.of_nat p) (len P) (values U) -> (1 <= p)%nat -> INR p <= 2 ^ 40 ->
  kn (values U) (Z.of_nat p) = 0 -> kn (values U) (len P) = 1 ->
  (forall i, (Z.of_nat p <= i < len P)%Z -> / 2 ^ 1000 <= kn (values U) (i + 1) - kn (values U) i) ->
  Forall (fun row => length row = 3%nat /\ within (- M) M row) P -> 0 <= M <= 2 ^ 900 ->
  finite64 x -> 0 <= value x <= 1 ->
  (1 - value x <= 102 / 100000000 -> kn (values U) (len P - 1) <= value x) ->
  exists y, single_point (mkCurve (K := Binary64) (Some (Z.of_nat p)) (Some P) (Some U) d) x = Ok y /\
    near64 (10 * INR (S p) * (ulp64 * M + tiny64)) y (curve_xyz (values U) p (map values P) (value x)).
Proof. exact single_point_b64. Qed.
Print Assumptions C81_curve.
Example C81_example : within 0 1 fU /\ clamped 2 (len fP) (values fU) /\ kn (values fU) 2 = 0 /\ kn (values fU) (len fP) = 1 /\
  (forall i, (2 <= i < len fP)%Z -> / 2 ^ 1000 <= kn (values fU) (i + 1) - kn (values fU) i) /\
  Forall (fun row => length row = 3%nat /\ within (- 6) 6 row) fP /\ 0 <= 6 <= 2 ^ 900 /\
  finite64 0x1.999999999999ap-4%float /\ 0 <= value 0x1.999999999999ap-4%float <= 1 /\
  (1 - value 0x1.999999999999ap-4%float <= 102 / 100000000 -> kn (values fU) (len fP - 1) <= value 0x1.999999999999ap-4%float).
Proof.
  change (len fP) with 5%Z.
  split; [exact fU_within|]; split; [exact fU_clamped|]; rewrite fU_values.
  split; [kn_eval; lra|]; split; [kn_eval; lra|]; split.
  - intros i Hi; apply gap_ok; assert (i = 2 \/ i = 3 \/ i = 4)%Z as [->|[->| ->]] by lia; kn_eval; lra.
  - split; [exact fP_within|]; split; [split; [lra|apply small_pow; lra]|].
    split; [vm_compute; exact I|]; split; val_eval; lra.
Qed.
(** With the knots of [generate_uniform] and at most 490000 spans, no condition
    on the parameter is left. *)
Theorem C81_uniform : forall p P d (x : Binary64) M, (1 <= p)%nat -> INR p <= 2 ^ 40 -> (Z.of_nat p + 1 <= len P)%Z ->
  (len P - Z.of_nat p <= 490000)%Z ->
  Forall (fun row => length row = 3%nat /\ within (- M) M row) P -> 0 <= M <= 2 ^ 900 ->
  finite64 x -> 0 <= value x <= 1 ->
  exists U : list PrimFloat.float, generate_uniform (Z.of_nat p) (len P) = Ok (U : list Binary64) /\
  check_knot_vector (Z.of_nat p) (NdArray (U : list Binary64)) (len P) = Ok true /\
  exists y, single_point (mkCurve (K := Binary64) (Some (Z.of_nat p)) (Some P) (Some U) d) x = Ok y /\
    near64 (10 * INR (S p) * (ulp64 * M + tiny64)) y (curve_xyz (values U) p (map values P) (value x)).
Proof. exact uniform_curve_b64. Qed.
Print Assumptions C81_uniform.
Example C81_uniform_example : (Z.of_nat 3 + 1 <= len fP)%Z /\ (len fP - Z.of_nat 3 <= 490000)%Z /\
  Forall (fun row => length row = 3%nat /\ within (- 6) 6 row) fP /\ 0 <= 6 <= 2 ^ 900 /\
  finite64 1%float /\ 0 <= value 1%float <= 1.
Proof.
  change (len fP) with 5%Z; split; [lia|]; split; [lia|]; split; [exact fP_within|].
  split; [split; [lra|apply small_pow; lra]|]; split; [exact I|val_eval; lra].
Qed.
(** Neither end interpolation nor the bounding box holds exactly: all control
    points are (1,1,1), the knots are accepted, and the curve starts elsewhere. *)
Theorem C81_exact_ends_refuted : exists (U : list PrimFloat.float) (y : list PrimFloat.float),
  within 0 1 U /\ clamped 1 3 (values U) /\ check_knot_vector 1 (NdArray (U : list Binary64)) 3 = Ok true /\
  single_point (mkCurve (K := Binary64) (Some 1%Z) (Some [[1; 1; 1]; [1; 1; 1]; [1; 1; 1]]%float) (Some U) 3) 0%float = Ok y /\
  Forall (fun c => value c < 1) y.
Proof.
  exists [0; 0; 0x1.70a3d70a3d70ap-4; 1; 1]%float, [0x1.fffffffffffffp-1; 0x1.fffffffffffffp-1; 0x1.fffffffffffffp-1]%float.
  split; [within_eval|]; split.
  - set (v := value 0x1.70a3d70a3d70ap-4%float); assert (Hv : 0 < v < 1) by (unfold v; val_eval; lra).
    assert (E : values [0; 0; 0x1.70a3d70a3d70ap-4; 1; 1]%float = [0; 0; v; 1; 1])
      by (unfold values; cbn [map]; fold v; repeat f_equal; val_eval; lra).
    rewrite E; solve_clamped.
  - split; [vm_compute; reflexivity|]; split; [vm_compute; reflexivity|].
    repeat (apply Forall_cons; [val_eval; lra|]); apply Forall_nil.
Qed.
Print Assumptions C81_exact_ends_refuted.

(** ** C82: surface points. *)
Theorem C82_surface : forall p q nu nv (U V : list PrimFloat.float) P (x y : Binary64) M,
  within 0 1 U -> clamped (Z.of_nat p) (Z.of_nat nu) (values U) -> (1 <= p)%nat -> INR p <= 2 ^ 40 ->
  kn (values U) (Z.of_nat p) = 0 -> kn (values U) (Z.of_nat nu) = 1 ->
  (forall i, (Z.of_nat p <= i < Z.of_nat nu)%Z -> / 2 ^ 1000 <= kn (values U) (i + 1) - kn (values U) i) ->
  within 0 1 V -> clamped (Z.of_nat q) (Z.of_nat nv) (values V) -> (1 <= q)%nat -> INR q <= 2 ^ 40 ->
  kn (values V) (Z.of_nat q) = 0 -> kn (values V) (Z.of_nat nv) = 1 ->
  (forall i, (Z.of_nat q <= i < Z.of_nat nv)%Z -> / 2 ^ 1000 <= kn (values V) (i + 1) - kn (values V) i) ->
  length P = (nu * nv)%nat -> Forall (fun row => length row = 3%nat /\ within (- M) M row) P -> 0 <= M <= 2 ^ 890 ->
  finite64 x -> 0 <= value x <= 1 -> (1 - value x <= 102 / 100000000 -> kn (values U) (Z.of_nat nu - 1) <= value x) ->
  finite64 y -> 0 <= value y <= 1 -> (1 - value y <= 102 / 100000000 -> kn (values V) (Z.of_nat nv - 1) <= value y) ->
  exists z, surf_point (mkSurf (K := Binary64) (Z.of_nat p) (Z.of_nat q) (Z.of_nat nu) (Z.of_nat nv) P U V) x y = Ok z /\
    near64 (11 * INR (p + q + 1) * (ulp64 * M + tiny64)) z
      (surface_xyz (values U) (values V) p q nu nv (map values P) (value x) (value y)).
Proof. exact surf_point_b64. Qed.
Print Assumptions C82_surface.
Example C82_example : within 0 1 fU /\ clamped 2 5 (values fU) /\ kn (values fU) 2 = 0 /\ kn (values fU) 5 = 1 /\
  (forall i, (2 <= i < 5)%Z -> / 2 ^ 1000 <= kn (values fU) (i + 1) - kn (values fU) i) /\
  within 0 1 fV /\ clamped 1 3 (values fV) /\ kn (values fV) 1 = 0 /\ kn (values fV) 3 = 1 /\
  (forall i, (1 <= i < 3)%Z -> / 2 ^ 1000 <= kn (values fV) (i + 1) - kn (values fV) i) /\
  length fQ = (5 * 3)%nat /\ Forall (fun row => length row = 3%nat /\ within (- 7) 7 row) fQ /\ 0 <= 7 <= 2 ^ 890 /\
  finite64 0.5%float /\ 0 <= value 0.5%float <= 1 /\ (1 - value 0.5%float <= 102 / 100000000 -> kn (values fU) (5 - 1) <= value 0.5%float) /\
  finite64 1%float /\ 0 <= value 1%float <= 1 /\ (1 - value 1%float <= 102 / 100000000 -> kn (values fV) (3 - 1) <= value 1%float).
Proof.
  split; [exact fU_within|]; split; [exact fU_clamped|]; rewrite fU_values.
  split; [kn_eval; lra|]; split; [kn_eval; lra|]; split.
  { intros i Hi; apply gap_ok; assert (i = 2 \/ i = 3 \/ i = 4)%Z as [->|[->| ->]] by lia; kn_eval; lra. }
  split; [exact fV_within|]; split; [exact fV_clamped|]; rewrite fV_values.
  split; [kn_eval; lra|]; split; [kn_eval; lra|]; split.
  { intros i Hi; apply gap_ok; assert (i = 1 \/ i = 2)%Z as [->| ->] by lia; kn_eval; lra. }
  split; [reflexivity|]; split; [exact fQ_within|]; split; [split; [lra|apply small_pow; lra]|].
  split; [vm_compute; exact I|]; split; [val_eval; lra|]; split; [val_eval; lra|].
  split; [vm_compute; exact I|]; split; [val_eval; lra|]; intros _; kn_eval; val_eval; lra.
Qed.
Theorem C82_uniform : forall p q nu nv P (x y : Binary64) M, (1 <= p)%nat -> INR p <= 2 ^ 40 -> (1 <= q)%nat -> INR q <= 2 ^ 40 ->
  (p + 1 <= nu)%nat -> (Z.of_nat nu - Z.of_nat p <= 490000)%Z -> (q + 1 <= nv)%nat -> (Z.of_nat nv - Z.of_nat q <= 490000)%Z ->
  length P = (nu * nv)%nat -> Forall (fun row => length row = 3%nat /\ within (- M) M row) P -> 0 <= M <= 2 ^ 890 ->
  finite64 x -> 0 <= value x <= 1 -> finite64 y -> 0 <= value y <= 1 ->
  exists U V : list PrimFloat.float, generate_uniform (Z.of_nat p) (Z.of_nat nu) = Ok (U : list Binary64) /\
  generate_uniform (Z.of_nat q) (Z.of_nat nv) = Ok (V : list Binary64) /\
  exists z, surf_point (mkSurf (K := Binary64) (Z.of_nat p) (Z.of_nat q) (Z.of_nat nu) (Z.of_nat nv) P U V) x y = Ok z /\
    near64 (11 * INR (p + q + 1) * (ulp64 * M + tiny64)) z
      (surface_xyz (values U) (values V) p q nu nv (map values P) (value x) (value y)).
Proof. exact uniform_surface_b64. Qed.
Print Assumptions C82_uniform.
Example C82_uniform_example : length fQ = (5 * 3)%nat /\ Forall (fun row => length row = 3%nat /\ within (- 7) 7 row) fQ /\
  0 <= 7 <= 2 ^ 890 /\ finite64 0.5%float /\ 0 <= value 0.5%float <= 1 /\ finite64 0x1.999999999999ap-4%float /\
  0 <= value 0x1.999999999999ap-4%float <= 1.
Proof.
  split; [reflexivity|]; split; [exact fQ_within|]; split; [split; [lra|apply small_pow; lra]|].
  split; [vm_compute; exact I|]; split; [val_eval; lra|]; split; [vm_compute; exact I|val_eval; lra].
Qed.

(** ** C83: knot vectors. *)
Theorem C83_generated : forall p n, (0 <= p)%Z -> (p + 1 <= n)%Z -> (n - p <= 2 ^ 49)%Z ->
  exists U : list PrimFloat.float, generate_uniform p n = Ok (U : list Binary64) /\ within 0 1 U /\ clamped p n (values U) /\
    (forall i, (0 <= i <= p)%Z -> kn (values U) i = 0) /\ (forall i, (n <= i <= n + p)%Z -> kn (values U) i = 1) /\
    (forall i, (p <= i <= n)%Z -> Rabs (kn (values U) i - (IZR i - IZR p) / (IZR n - IZR p)) <= 3 * ulp64) /\
    (forall i, (p <= i < n)%Z -> 1 / (2 * (IZR n - IZR p)) <= kn (values U) (i + 1) - kn (values U) i).
Proof. exact generate_uniform_b64. Qed.
Print Assumptions C83_generated.
Theorem C83_generated_accepted : forall p n, (0 <= p)%Z -> (p + 1 <= n)%Z -> (n - p <= 2 ^ 49)%Z ->
  exists U : list PrimFloat.float, generate_uniform p n = Ok (U : list Binary64) /\
    check_knot_vector p (NdArray (U : list Binary64)) n = Ok true.
Proof. exact uniform_accepted_ex. Qed.
Print Assumptions C83_generated_accepted.
Example C83_generated_example : (1000003 - 3 <= 2 ^ 49)%Z /\
  generate_uniform 2 5 = Ok ([0; 0; 0; 0x1.5555555555555p-2; 0x1.5555555555555p-1; 1; 1; 1]%float : list Binary64).
Proof. split; [lia|vm_compute; reflexivity]. Qed.
(** The knots are not the doubles closest to i/m. *)
Theorem C83_nearest_refuted : exists (U : list PrimFloat.float),
  generate_uniform 1 6 = Ok (U : list Binary64) /\
  Rabs (value 0x1.3333333333333p-1 - 3/5) < Rabs (kn (values U) 4 - 3/5).
Proof.
  exists [0; 0; 0x1.999999999999ap-3; 0x1.999999999999ap-2; 0x1.3333333333334p-1; 0x1.999999999999ap-1; 1; 1]%float.
  split; [vm_compute; reflexivity|].
  change (kn (values _) 4) with (value 0x1.3333333333334p-1%float).
  assert (A : value 0x1.3333333333333p-1%float - 3/5 <= 0 /\ - (value 0x1.3333333333333p-1%float - 3/5) < value 0x1.3333333333334p-1%float - 3/5)
    by (val_eval; lra).
  rewrite (Rabs_left1 (value 0x1.3333333333333p-1%float - 3/5)) by lra; rewrite Rabs_right by lra; lra.
Qed.
Print Assumptions C83_nearest_refuted.
Theorem C83_clamped_accepted : forall p n (U : list PrimFloat.float), Forall finite64 U -> clamped p n (values U) ->
  Forall (fun x => Rabs (value x) <= 2 ^ 1000) U -> / 2 ^ 1000 <= kn (values U) n - kn (values U) 0 ->
  check_knot_vector p (NdArray (U : list Binary64)) n = Ok true.
Proof. exact check_clamped_b64. Qed.
Print Assumptions C83_clamped_accepted.
Example C83_clamped_example : Forall finite64 fU /\ clamped 2 5 (values fU) /\
  Forall (fun x => Rabs (value x) <= 2 ^ 1000) fU /\ / 2 ^ 1000 <= kn (values fU) 5 - kn (values fU) 0.
Proof.
  split; [exact (within_finite _ _ _ fU_within)|]; split; [exact fU_clamped|]; split.
  - assert (1 <= 2 ^ 1000) by (apply pow_R1_Rle; lra).
    eapply Forall_impl; [|exact fU_within]; intros x (_ & B); rewrite Rabs_right; lra.
  - rewrite fU_values; apply gap_ok; kn_eval; lra.
Qed.
(** Conversely, for knots that run from 0 to 1 nothing but near-clamped sorted
    vectors is accepted ... *)
Theorem C83_unit_accepted : forall p n (U : list PrimFloat.float), (0 <= p)%Z -> (p + 1 <= n)%Z -> within 0 1 U ->
  In 0 (values U) -> In 1 (values U) -> check_knot_vector p (NdArray (U : list Binary64)) n = Ok true ->
  knots_for p n (values U) /\ kn (values U) p <= 102/10000000000 /\ 1 - kn (values U) n <= 102/10000000.
Proof. exact check_unit_b64. Qed.
Print Assumptions C83_unit_accepted.
Example C83_unit_example : within 0 1 fU /\ In 0 (values fU) /\ In 1 (values fU) /\
  check_knot_vector 2 (NdArray (fU : list Binary64)) 5 = Ok true.
Proof.
  split; [exact fU_within|]; rewrite fU_values; split; [left; reflexivity|]; split; [|vm_compute; reflexivity].
  do 5 right; left; reflexivity.
Qed.
(** ... but on other intervals rescaling can hide a decrease. *)
Theorem C83_sorted_refuted : exists (U : list PrimFloat.float) (n p : Z),
  Forall finite64 U /\ check_knot_vector p (NdArray (U : list Binary64)) n = Ok true /\ ~ nondecreasing (values U).
Proof.
  exists [-1; -1; -1; 0x1p-60; 0; 1; 1; 1]%float, 5%Z, 2%Z.
  split; [repeat (apply Forall_cons; [vm_compute; exact I|]); apply Forall_nil|].
  split; [vm_compute; reflexivity|]; intros H.
  specialize (H 3%Z 4%Z ltac:(lia) ltac:(vm_compute; reflexivity)).
  assert (H' : value 0x1p-60%float <= value 0%float) by exact H.
  assert (value 0%float < value 0x1p-60%float) by (val_eval; lra); lra.
Qed.
Print Assumptions C83_sorted_refuted.
