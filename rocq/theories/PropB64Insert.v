(** C88: knot insertion on IEEE 754 doubles.  [e] bounds the rounding error; the
    [12 ulp64 M] per round are two roundings of the weight and its complement,
    two products and a sum. *)
From Coq Require Import Reals Lra Lia ZArith List Floats.
From Verif Require Import Py PyLemmas Num ModelKnots ModelBasis ModelCurve Spec SpecB64 MathKnots
  ProofB64Insert ProofB64Insert2 PropB64 Examples.
Import ListNotations.
Open Scope R_scope.

(** Inserting [x] r times, whether or not it is a knot already, as long as the
    span search returns the half-open span: the new knot vector is exact, each
    new control point is within [e] of that of a curve which is exactly the old
    one, points away from [x] are copied without rounding. *)
Theorem C88_insertion : forall p r k (U : list PrimFloat.float) (P : list (list PrimFloat.float)) (x : Binary64) M,
  within (- 2 ^ 1000) (2 ^ 1000) U -> knots_for p (len P) (values U) -> (p <= 2 ^ 40)%Z ->
  Forall (fun row => length row = 3%nat /\ within (- M) M row) P -> 0 <= M <= 2 ^ 900 ->
  finite64 x -> find_span (len P) p x U = Ok k -> (p <= k < len P)%Z ->
  kn (values U) k <= value x < kn (values U) (k + 1) ->
  (forall y, In y (values U) -> y <> value x -> ~ close (101/10000000) (101/10000000000) (value x) y) ->
  let s := Z.of_nat (count_occ Req_EM_T (values U) (value x)) in
  (0 <= r)%Z -> (s + r <= p)%Z ->
  let T := firstn (Z.to_nat (k + 1)) U ++ repeat x (Z.to_nat r) ++ skipn (Z.to_nat (k + 1)) U in
  let e := IZR r * (12 * ulp64 * M + 4 * tiny64) in
  exists (Q : list (list PrimFloat.float)) (q : list (list R)), curve_knot_insertion (K := Binary64) p U P x r = Ok (T, Q) /\
    len q = (len P + r)%Z /\ Forall2 (near64 e) Q q /\
    Forall (fun row => length row = 3%nat /\ Forall (fun z => - M <= z <= M) row) q /\
    (forall c u, (c < 3)%nat -> curve_sum (values T) (Z.to_nat p) (coords c q) u =
       curve_sum (values U) (Z.to_nat p) (coords c (map values P)) u) /\
    (clamped p (len P) (values U) -> forall c u, (c < 3)%nat ->
       Rabs (curve_sum (values T) (Z.to_nat p) (coords c (map values Q)) u -
             curve_sum (values U) (Z.to_nat p) (coords c (map values P)) u) <= e) /\
    (forall i, (0 <= i <= k - p)%Z -> nth (Z.to_nat i) Q [] = nth (Z.to_nat i) P []) /\
    (forall i, (k - s <= i < len P)%Z -> nth (Z.to_nat (i + r)) Q [] = nth (Z.to_nat i) P []).
Proof. exact insertion_b64. Qed.
Print Assumptions C88_insertion.
Lemma fU_far x y : In y (values fU) -> Rabs (x - y) > 1/100 \/ y = x -> y <> x -> ~ close (101/10000000) (101/10000000000) x y.
Proof.
  intros Hy [H|H] N; [|contradiction]; unfold close; rewrite fU_values in Hy; cbn [In] in Hy.
  assert (Rabs y <= 1) by (apply Rabs_le; decompose [or] Hy; subst; try contradiction; lra); lra.
Qed.
Example C88_insertion_example : within (- 2 ^ 1000) (2 ^ 1000) fU /\ knots_for 2 (len fP) (values fU) /\
  Forall (fun row => length row = 3%nat /\ within (- 6) 6 row) fP /\ 0 <= 6 <= 2 ^ 900 /\
  finite64 0.25%float /\ find_span (len fP) 2 (0.25%float : Binary64) fU = Ok 3%Z /\
  kn (values fU) 3 <= value 0.25%float < kn (values fU) (3 + 1) /\
  (forall y, In y (values fU) -> y <> value 0.25%float -> ~ close (101/10000000) (101/10000000000) (value 0.25%float) y) /\
  (Z.of_nat (count_occ Req_EM_T (values fU) (value 0.25%float)) + 1 <= 2)%Z.
Proof.
  assert (V : value 0.25%float = 1/4) by (val_eval; lra); rewrite V.
  assert (P1 : 1 <= 2 ^ 1000) by (apply pow_R1_Rle; lra).
  split; [eapply Forall_impl; [|exact fU_within]; intros z (F & B); split; [exact F|lra]|].
  split; [apply fU_clamped|]; split; [exact fP_within|]; split; [split; [lra|apply small_pow; lra]|].
  split; [exact I|]; split; [vm_compute; reflexivity|]; split; [rewrite fU_values; kn_eval; lra|]; split.
  - intros y Hy N; apply fU_far; try assumption; rewrite fU_values in Hy; cbn [In] in Hy.
    decompose [or] Hy; subst; try contradiction; try lra; left; unfold Rabs; destruct Rcase_abs; lra.
  - rewrite fU_values; cbn [count_occ].
    repeat (destruct Req_EM_T; [try lra|]); try lra; cbn; lia.
Qed.

(** Every value of the domain that is not close to a knot: no condition on the
    span search is left, and the curve moves by at most [e] everywhere. *)
Theorem C88_new_knot : forall p r (U : list PrimFloat.float) (P : list (list PrimFloat.float)) (x : Binary64) M,
  within (- 2 ^ 1000) (2 ^ 1000) U -> clamped p (len P) (values U) -> (p <= 2 ^ 40)%Z ->
  Forall (fun row => length row = 3%nat /\ within (- M) M row) P -> 0 <= M <= 2 ^ 900 ->
  finite64 x -> kn (values U) p <= value x <= kn (values U) (len P) ->
  (forall y, In y (values U) -> ~ close (101/10000000) (101/10000000000) (value x) y) ->
  (0 <= r <= p)%Z ->
  let e := IZR r * (12 * ulp64 * M + 4 * tiny64) in
  exists (k : Z) (Q : list (list PrimFloat.float)) (q : list (list R)), let T := firstn (Z.to_nat (k + 1)) U ++ repeat x (Z.to_nat r) ++ skipn (Z.to_nat (k + 1)) U in
    (p <= k < len P)%Z /\ kn (values U) k < value x < kn (values U) (k + 1) /\
    curve_knot_insertion (K := Binary64) p U P x r = Ok (T, Q) /\
    len q = (len P + r)%Z /\ Forall2 (near64 e) Q q /\
    Forall (fun row => length row = 3%nat /\ Forall (fun z => - M <= z <= M) row) q /\
    (forall c u, (c < 3)%nat -> curve_sum (values T) (Z.to_nat p) (coords c q) u =
       curve_sum (values U) (Z.to_nat p) (coords c (map values P)) u) /\
    (forall c u, (c < 3)%nat ->
       Rabs (curve_sum (values T) (Z.to_nat p) (coords c (map values Q)) u -
             curve_sum (values U) (Z.to_nat p) (coords c (map values P)) u) <= e).
Proof. exact insertion_new_b64. Qed.
Print Assumptions C88_new_knot.
Example C88_new_knot_example : within (- 2 ^ 1000) (2 ^ 1000) fU /\ clamped 2 (len fP) (values fU) /\
  finite64 0.5%float /\ kn (values fU) 2 <= value 0.5%float <= kn (values fU) (len fP) /\
  (forall y, In y (values fU) -> ~ close (101/10000000) (101/10000000000) (value 0.5%float) y).
Proof.
  assert (V : value 0.5%float = 1/2) by (val_eval; lra); rewrite V.
  assert (P1 : 1 <= 2 ^ 1000) by (apply pow_R1_Rle; lra).
  split; [eapply Forall_impl; [|exact fU_within]; intros z (F & B); split; [exact F|lra]|].
  split; [exact fU_clamped|]; split; [exact I|]; split; [change (len fP) with 5%Z; rewrite fU_values; kn_eval; lra|].
  intros y Hy; assert (Rabs (1/2 - y) > 1/100 /\ y <> 1/2) as (A & B).
  { rewrite fU_values in Hy; cbn [In] in Hy; decompose [or] Hy; subst; try contradiction; (split; [unfold Rabs; destruct Rcase_abs; lra|lra]). }
  apply fU_far; [exact Hy|left; exact A|exact B].
Qed.

(** Evaluated before and after one insertion, the two computed points agree up
    to rounding. *)
Theorem C88_points : forall p (U : list PrimFloat.float) (P : list (list PrimFloat.float)) (x y : Binary64) M d,
  within 0 1 U -> clamped (Z.of_nat p) (len P) (values U) -> (1 <= p)%nat -> INR p <= 2 ^ 40 ->
  kn (values U) (Z.of_nat p) = 0 -> kn (values U) (len P) = 1 ->
  (forall i, (Z.of_nat p <= i < len P)%Z -> / 2 ^ 1000 <= kn (values U) (i + 1) - kn (values U) i) ->
  Forall (fun row => length row = 3%nat /\ within (- M) M row) P -> 0 <= M <= 2 ^ 899 ->
  finite64 x -> 0 <= value x <= 1 ->
  (forall z, In z (values U) -> ~ close (101/10000000) (101/10000000000) (value x) z) ->
  finite64 y -> 0 <= value y <= 1 ->
  (1 - value y <= 102 / 100000000 -> kn (values U) (len P - 1) <= value y /\ value x <= value y) ->
  exists (T : list PrimFloat.float) (Q : list (list PrimFloat.float)) (a b : list PrimFloat.float), curve_knot_insertion (K := Binary64) (Z.of_nat p) U P x 1 = Ok (T, Q) /\
    single_point (mkCurve (K := Binary64) (Some (Z.of_nat p)) (Some P) (Some U) d) y = Ok a /\
    single_point (mkCurve (K := Binary64) (Some (Z.of_nat p)) (Some Q) (Some T) d) y = Ok b /\
    near64 (27 * INR (S p) * (ulp64 * M + tiny64)) b (values a).
Proof. exact insertion_points_b64. Qed.
Print Assumptions C88_points.
Example C88_points_example : (forall i, (2 <= i < len fP)%Z -> / 2 ^ 1000 <= kn (values fU) (i + 1) - kn (values fU) i) /\
  0 <= 6 <= 2 ^ 899 /\ finite64 0.75%float /\ 0 <= value 0.75%float <= 1 /\
  (1 - value 0.75%float <= 102 / 100000000 -> kn (values fU) (len fP - 1) <= value 0.75%float /\ value 0.5%float <= value 0.75%float) /\
  exists T Q a b : list _, curve_knot_insertion (K := Binary64) 2 fU fP 0.5%float 1 = Ok (T, Q) /\
    single_point (mkCurve (K := Binary64) (Some 2%Z) (Some fP) (Some fU) 3) 0.75%float = Ok a /\
    single_point (mkCurve (K := Binary64) (Some 2%Z) (Some Q) (Some T) 3) 0.75%float = Ok b.
Proof.
  change (len fP) with 5%Z; split; [|split; [|split; [|split; [|split]]]].
  - rewrite fU_values; intros i Hi; apply gap_ok; assert (i = 2 \/ i = 3 \/ i = 4)%Z as [->|[->| ->]] by lia; kn_eval; lra.
  - split; [lra|]; apply Rle_trans with (2 ^ 10); [cbn [pow]; lra|apply Rle_pow; [lra|lia]].
  - exact I.
  - val_eval; lra.
  - val_eval; lra.
  - do 4 eexists; split; [vm_compute; reflexivity|]; split; vm_compute; reflexivity.
Qed.

(** The bound cannot be 0, and new points need not lie between the old ones: all
    control points are (0.4, 0.4, 0.4), the new one is larger. *)
Theorem C88_exact_refuted : exists (U T : list PrimFloat.float) (P Q : list (list PrimFloat.float)) (x : PrimFloat.float),
  within 0 1 U /\ clamped 1 (len P) (values U) /\ P = [[0.4; 0.4; 0.4]; [0.4; 0.4; 0.4]]%float /\
  curve_knot_insertion (K := Binary64) 1 U P x 1 = Ok (T, Q) /\
  Forall (fun c => value 0.4%float < value c) (nth 1 Q []) /\ length (nth 1 Q []) = 3%nat.
Proof.
  exists [0; 0; 1; 1]%float, [0; 0; 0.2; 1; 1]%float, [[0.4; 0.4; 0.4]; [0.4; 0.4; 0.4]]%float,
    [[0.4; 0.4; 0.4]; [0x1.999999999999bp-2; 0x1.999999999999bp-2; 0x1.999999999999bp-2]; [0.4; 0.4; 0.4]]%float, 0.2%float.
  split; [within_eval|]; split.
  - replace (values [0; 0; 1; 1]%float) with [0; 0; 1; 1] by (unfold values; cbn [map]; repeat f_equal; val_eval; lra).
    change (len [[0.4; 0.4; 0.4]; [0.4; 0.4; 0.4]]%float) with 2%Z; solve_clamped.
  - split; [reflexivity|]; split; [vm_compute; reflexivity|]; split; [|reflexivity].
    cbn [nth]; repeat (apply Forall_cons; [val_eval; lra|]); apply Forall_nil.
Qed.
Print Assumptions C88_exact_refuted.
