(** C12-C15: knot insertion. *)
From Coq Require Import Floats Permutation.
From Verif Require Import Py Num ModelKnots ModelBasis ModelCurve Spec MathKnots ProofNum ProofSpan2 ProofKnots ProofInsert2 ProofInsert3 Examples.
Open Scope R_scope.

(** Points used by the examples: six control points for [exU]. *)
Definition exP : list (list R) := [[0;0;0]; [1;2;0]; [2;0;1]; [3;2;0]; [4;0;2]; [5;1;0]].

(** C12, over any numbers: the vector returned and the number of points. *)
Theorem C12_insertion_result : forall (K : Num) (kv : list K) (P : list (list K)) (x : K) (p r k : Z),
  find_span (zlen P) p x kv = Ok k -> (p <= k < zlen P)%Z -> zlen kv = (zlen P + p + 1)%Z ->
  (0 <= p)%Z -> (0 <= r)%Z -> (find_multiplicity x kv + r <= p)%Z -> Forall (fun row => zlen row = 3%Z) P ->
  exists Q, curve_knot_insertion p kv P x r
      = Ok (firstn (Z.to_nat (k + 1)) kv ++ repeat x (Z.to_nat r) ++ skipn (Z.to_nat (k + 1)) kv, Q) /\
    zlen Q = (zlen P + r)%Z /\ Forall (fun row => zlen row = 3%Z) Q.
Proof. exact insertion_shape. Qed.
Print Assumptions C12_insertion_result.
Example C12_result_example :
  find_span (zlen iP) 2 (0.625%float : Binary64) iU = Ok 4%Z /\ (2 <= 4 < zlen iP)%Z /\ zlen iU = (zlen iP + 2 + 1)%Z /\
  (find_multiplicity (0.625%float : Binary64) iU + 2 <= 2)%Z /\ Forall (fun row => zlen row = 3%Z) iP.
Proof. repeat split; try (vm_compute; congruence); repeat constructor. Qed.

Theorem C12_insertion_knots : forall p r U P x k,
  knots_for p (len P) U -> Forall (fun row => length row = 3%nat) P ->
  find_span (len P) p (Fin x : Exact) (fin U) = Ok k -> (p <= k < len P)%Z ->
  (0 <= r)%Z -> (find_multiplicity (Fin x : Exact) (fin U) + r <= p)%Z ->
  exists T Q, curve_knot_insertion p (fin U) (fin2 P) (Fin x : Exact) r = Ok (fin T, Q) /\
    zlen Q = (len P + r)%Z /\ Forall (fun row => zlen row = 3%Z) Q /\
    Permutation T (U ++ repeat x (Z.to_nat r)) /\
    (kn U k <= x <= kn U (k + 1) -> nondecreasing T) /\
    (forall i, (i <= p)%Z -> kn T i = kn U i) /\
    (forall i, (len P <= i)%Z -> kn T (i + r) = kn U i).
Proof. exact insertion_knots. Qed.
Print Assumptions C12_insertion_knots.

(** Planar control points are refused: the result rows have three entries. *)
Theorem C12_insertion_planar_raises : forall (K : Num) (kv : list K) (P : list (list K)) (x : K) p r k,
  find_span (zlen P) p x kv = Ok k -> (p <= k < zlen P)%Z -> zlen kv = (zlen P + p + 1)%Z ->
  (0 <= p)%Z -> (0 <= r)%Z -> Forall (fun row => zlen row = 2%Z) P ->
  curve_knot_insertion p kv P x r = Err ValueError.
Proof. exact insertion_planar. Qed.
Print Assumptions C12_insertion_planar_raises.
Example C12_planar_example :
  find_span 2 1 (0.5%float : Binary64) iL = Ok 1%Z /\ zlen iL = (2 + 1 + 1)%Z /\
  curve_knot_insertion 1 iL [[0; 0]; [1; 1]]%float (0.5%float : Binary64) 1 = Err ValueError.
Proof. vm_compute; repeat split. Qed.

(** C13: whenever the span found is the half-open one, and knots close to [x]
    are equal to it, the refined curve is the same function. *)
Theorem C13_insertion_keeps_curve : forall p r U P x k,
  knots_for p (len P) U -> Forall (fun row => length row = 3%nat) P ->
  find_span (len P) p (Fin x : Exact) (fin U) = Ok k -> (p <= k < len P)%Z ->
  kn U k <= x < kn U (k + 1) ->
  (forall y, In y U -> y <> x -> ~ close (1/100000) (1/100000000) x y) ->
  (0 <= r)%Z -> (Z.of_nat (count_occ Req_EM_T U x) + r <= p)%Z ->
  exists T Q, curve_knot_insertion p (fin U) (fin2 P) (Fin x : Exact) r = Ok (fin T, fin2 Q) /\
    forall c u, (c < 3)%nat -> curve_sum T (Z.to_nat p) (coords c Q) u = curve_sum U (Z.to_nat p) (coords c P) u.
Proof. exact insertion_exact_sum. Qed.
Print Assumptions C13_insertion_keeps_curve.

(** In particular for every value of the domain that is not close to a knot. *)
Theorem C13_new_knot_keeps_curve : forall p r U P x,
  knots_for p (len P) U -> Forall (fun row => length row = 3%nat) P ->
  kn U p <= x <= kn U (len P) -> (forall y, In y U -> ~ close (1/100000) (1/100000000) x y) ->
  (0 <= r <= p)%Z ->
  exists T Q, curve_knot_insertion p (fin U) (fin2 P) (Fin x : Exact) r = Ok (fin T, fin2 Q) /\
    len Q = (len P + r)%Z /\ Forall (fun row => length row = 3%nat) Q /\
    forall c u, (c < 3)%nat -> curve_sum T (Z.to_nat p) (coords c Q) u = curve_sum U (Z.to_nat p) (coords c P) u.
Proof. exact insertion_new_knot. Qed.
Print Assumptions C13_new_knot_keeps_curve.
Example C13_example : knots_for 2 (len exP) exU /\ Forall (fun row => length row = 3%nat) exP /\
  kn exU 2 <= 5/8 <= kn exU (len exP) /\ (forall y, In y exU -> ~ close (1/100000) (1/100000000) (5/8) y) /\ (0 <= 2 <= 2)%Z.
Proof.
  split; [exact exU_knots|]; split; [repeat constructor|]; split; [unfold len, exP; cbn [length Z.of_nat Pos.of_succ_nat Pos.succ]; kn_eval; lra|].
  split; [|lia]; unfold exU, close; intros y Hy C; cbn [In] in Hy.
  assert (D : Rabs (5/8 - y) >= 1/8).
  { unfold Rabs; destruct (Rcase_abs (5/8 - y)); decompose [or] Hy; try contradiction; subst; lra. }
  assert (A : Rabs y <= 1).
  { unfold Rabs; destruct (Rcase_abs y); decompose [or] Hy; try contradiction; subst; lra. }
  lra.
Qed.

(** C14: re-inserting a simple interior knot moves the curve, *)
Theorem C14_reinsertion_refuted : exists (U T : list Binary64) (P Q : list (list Binary64)) (p : Z) (x u : Binary64) (a b : list Binary64),
  check_knot_vector p (NdArray U) (zlen P) = Ok true /\
  find_multiplicity x U = 1%Z /\ (1 + 1 <= p)%Z /\
  curve_knot_insertion p U P x 1 = Ok (T, Q) /\
  check_knot_vector p (NdArray T) (zlen Q) = Ok true /\
  curve_point p P U u = Ok a /\ curve_point p Q T u = Ok b /\ allclose a b = Ok false.
Proof.
  destruct reinsertion_witness as (A & B & T & Q & a & b & C & D & E & F & G).
  exists iU, T, iP, Q, 2%Z, (0.75%float), (0.625%float), a, b; repeat split; try assumption; lia.
Qed.
Print Assumptions C14_reinsertion_refuted.
(** and so does inserting a new knot more often than the degree. *)
Theorem C14_overinsertion_refuted : exists (U T : list Binary64) (P Q : list (list Binary64)) (p r : Z) (x u : Binary64) (a b : list Binary64),
  check_knot_vector p (NdArray U) (zlen P) = Ok true /\
  find_multiplicity x U = 0%Z /\ (p < r)%Z /\
  curve_knot_insertion p U P x r = Ok (T, Q) /\
  check_knot_vector p (NdArray T) (zlen Q) = Ok true /\
  curve_point p P U u = Ok a /\ curve_point p Q T u = Ok b /\ allclose a b = Ok false.
Proof.
  destruct overinsertion_witness as (A & B & T & Q & a & b & C & D & E & F & G).
  exists iL, T, iLP, Q, 1%Z, 2%Z, (0.5%float), (0.25%float), a, b; repeat split; try assumption; lia.
Qed.
Print Assumptions C14_overinsertion_refuted.

(** C15: new points are averages of neighbouring old ones, far ones are copied. *)
Theorem C15_insertion_points : forall p r U P x k,
  knots_for p (len P) U -> Forall (fun row => length row = 3%nat) P ->
  find_span (len P) p (Fin x : Exact) (fin U) = Ok k -> (p <= k < len P)%Z ->
  kn U k <= x < kn U (k + 1) ->
  (forall y, In y U -> y <> x -> ~ close (1/100000) (1/100000000) x y) ->
  (0 <= r)%Z -> (Z.of_nat (count_occ Req_EM_T U x) + r <= p)%Z ->
  exists T Q, curve_knot_insertion p (fin U) (fin2 P) (Fin x : Exact) r = Ok (fin T, fin2 Q) /\
    len Q = (len P + r)%Z /\ Forall (fun row => length row = 3%nat) Q /\
    forall c, (c < 3)%nat ->
    (forall u, curve_sum T (Z.to_nat p) (coords c Q) u = curve_sum U (Z.to_nat p) (coords c P) u) /\
    (forall i lo hi, (0 <= i < len Q)%Z ->
      (forall m, (i - r <= m <= i)%Z -> (0 <= m < len P)%Z -> lo <= nth (Z.to_nat m) (coords c P) 0 <= hi) ->
      lo <= nth (Z.to_nat i) (coords c Q) 0 <= hi) /\
    (forall i, (0 <= i <= k - p)%Z -> nth (Z.to_nat i) (coords c Q) 0 = nth (Z.to_nat i) (coords c P) 0) /\
    (forall i, (k - Z.of_nat (count_occ Req_EM_T U x) <= i < len P)%Z ->
       nth (Z.to_nat (i + r)) (coords c Q) 0 = nth (Z.to_nat i) (coords c P) 0).
Proof. exact insertion_exact. Qed.
Print Assumptions C15_insertion_points.
(** The hypotheses of C12 and C15 on [exU]. *)
Example C15_example : find_span (len exP) 2 (Fin (5/8) : Exact) (fin exU) = Ok 4%Z /\ kn exU 4 <= 5/8 < kn exU (4 + 1).
Proof.
  destruct C13_example as (H1 & _ & H3 & H4 & _).
  destruct (span_new_knot 2 (len exP) exU (5/8) H1 H3 H4) as (k & E & Hk & Hx).
  destruct (find_span_unique 2 (len exP) exU (5/8) H1 H3) as (s & E' & _ & HS).
  - intros C; apply (H4 (kn exU (len exP))); [apply kn_In; unfold len, exP, exU; cbn; lia|].
    unfold close in *; pose proof (Rabs_pos (kn exU (len exP))); lra.
  - intros i Hi EQ; apply (H4 (kn exU i)); [apply kn_In; unfold len, exP, exU in *; cbn in *; lia|].
    rewrite <- EQ; apply close_refl; lra.
  - assert (H45 : kn exU 4 <= 5/8 < kn exU (4 + 1)) by (kn_eval; lra).
    split; [|exact H45]; rewrite E'; f_equal; symmetry; apply HS; exact H45.
Qed.
