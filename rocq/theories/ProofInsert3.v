(** Insertion: a corollary, and executable counterexamples in binary64. *)
From Coq Require Import Floats Permutation.
From Verif Require Import Py PyLemmas Num ModelKnots ModelBasis ModelCurve Spec MathKnots ProofNum ProofSpan ProofSpan2 ProofKnots ProofInsert ProofInsert2.
Open Scope R_scope.

Lemma span_new_knot p n U x : knots_for p n U -> kn U p <= x <= kn U n ->
  (forall y, In y U -> ~ close (1/100000) (1/100000000) x y) ->
  exists k, find_span n p (Fin x : Exact) (fin U) = Ok k /\ (p <= k < n)%Z /\ kn U k <= x < kn U (k + 1).
Proof.
  intros HK Hx Hc; destruct HK as (Hp & Hn & HL & HU) eqn:EK; clear EK.
  assert (N : forall i, (0 <= i < len U)%Z -> x <> kn U i).
  { intros i Hi E; apply (Hc (kn U i)); [apply kn_In; lia|rewrite <- E; apply close_refl; lra]. }
  destruct (find_span_unique p n U x HK Hx) as (k & E & Hk & _).
  - intros C; apply (Hc (kn U n)); [apply kn_In; lia|].
    unfold close in *; pose proof (Rabs_pos (kn U n)); lra.
  - intros i Hi; apply N; lia.
  - exists k; destruct (find_span_ok p n U x HK Hx) as (k' & E' & Hk'); rewrite E in E'; injection E' as <-.
    split; [exact E|]; split; [lia|exact Hk].
Qed.
Lemma insertion_new_knot p r U P x : knots_for p (len P) U -> Forall (fun row => length row = 3%nat) P ->
  kn U p <= x <= kn U (len P) -> (forall y, In y U -> ~ close (1/100000) (1/100000000) x y) ->
  (0 <= r <= p)%Z ->
  exists T Q, curve_knot_insertion p (fin U) (fin2 P) (Fin x : Exact) r = Ok (fin T, fin2 Q) /\
    len Q = (len P + r)%Z /\ Forall (fun row => length row = 3%nat) Q /\
    forall c u, (c < 3)%nat -> curve_sum T (Z.to_nat p) (coords c Q) u = curve_sum U (Z.to_nat p) (coords c P) u.
Proof.
  intros HK HF Hx Hc Hr; destruct (span_new_knot _ _ _ _ HK Hx Hc) as (k & E & Hk & Hkx).
  assert (C0 : count_occ Req_EM_T U x = O).
  { apply count_occ_not_In; intros HI; apply (Hc x HI), close_refl; lra. }
  destruct (insertion_exact p r U P x k) as (T & Q & E1 & E2 & E3 & HC); try assumption; try lia.
  - intros y Hy _; auto.
  - exists T, Q; split; [exact E1|]; split; [exact E2|]; split; [exact E3|].
    intros c u Hc'; apply HC; exact Hc'.
Qed.
Lemma insertion_exact_sum p r U P x k : knots_for p (len P) U -> Forall (fun row => length row = 3%nat) P ->
  find_span (len P) p (Fin x : Exact) (fin U) = Ok k -> (p <= k < len P)%Z ->
  kn U k <= x < kn U (k + 1) ->
  (forall y, In y U -> y <> x -> ~ close (1/100000) (1/100000000) x y) ->
  (0 <= r)%Z -> (Z.of_nat (count_occ Req_EM_T U x) + r <= p)%Z ->
  exists T Q, curve_knot_insertion p (fin U) (fin2 P) (Fin x : Exact) r = Ok (fin T, fin2 Q) /\
    forall c u, (c < 3)%nat -> curve_sum T (Z.to_nat p) (coords c Q) u = curve_sum U (Z.to_nat p) (coords c P) u.
Proof.
  intros H1 H2 H3 H4 H5 H6 H7 H8; destruct (insertion_exact p r U P x k H1 H2 H3 H4 H5 H6 H7 H8) as (T & Q & E & _ & _ & HC).
  exists T, Q; split; [exact E|]; intros c u Hc; apply HC; exact Hc.
Qed.

(** Width 2 (planar points): the very first row copied does not fit. *)
Lemma insertion_planar (K : Num) (kv : list K) (P : list (list K)) (x : K) p r k :
  find_span (zlen P) p x kv = Ok k -> (p <= k < zlen P)%Z -> zlen kv = (zlen P + p + 1)%Z ->
  (0 <= p)%Z -> (0 <= r)%Z -> Forall (fun row => zlen row = 2%Z) P ->
  curve_knot_insertion p kv P x r = Err ValueError.
Proof.
  intros Hspan Hk HL Hp Hr HF; unfold curve_knot_insertion; cbv zeta; rewrite Hspan; cbn [bind].
  set (s := find_multiplicity x kv).
  set (n := length P); set (q := Z.to_nat p); set (m := Z.to_nat r).
  assert (Eq : p = Z.of_nat q) by (unfold q; lia); assert (Em : r = Z.of_nat m) by (unfold m; lia).
  assert (En : zlen P = Z.of_nat n) by reflexivity.
  assert (Ekv : kv = tab (n + q + 1) (fun i => nth (Z.to_nat i) kv x)).
  { replace (n + q + 1)%nat with (length kv) by (unfold zlen in HL; lia); apply list_as_tab. }
  pose proof (ins_knots n q m k (fun i => nth (Z.to_nat i) kv x) x ltac:(lia)) as EK; rewrite <- Ekv in EK.
  rewrite (np_full_tab' _ (n + q + 1 + m)) by lia; cbn [bind].
  unfold np_full2; destruct (Z.ltb_spec (zlen P + r) 0); [lia|]; destruct (Z.ltb_spec (p + 1) 0); [lia|].
  cbn [Z.ltb orb Z.compare bind].
  rewrite Eq, Em, En.
  destruct (for_range 0 (k + 1) (fun i a => let* y := aget kv i in aset a i y) _) as [a1| |]; try discriminate.
  cbn [bind] in *.
  destruct (for_range 1 (Z.of_nat m + 1) (fun i a => aset a (k + i) x) a1) as [a2| |]; try discriminate.
  cbn [bind] in *; rewrite EK; cbn [bind].
  rewrite for_range_step by lia.
  replace P with (tab n (fun i => nth (Z.to_nat i) P [])) at 1 by (symmetry; apply list_as_tab).
  rewrite aget_tab by lia; cbn [bind].
  replace (Z.to_nat (Z.of_nat n + Z.of_nat m)) with (n + m)%nat by lia; rewrite repeat_tab.
  unfold aset_row; rewrite aget_tab by lia; cbn [bind].
  pose proof (proj1 (Forall_forall _ _) HF (nth (Z.to_nat 0) P []) ltac:(apply nth_In; lia)) as W.
  destruct (nth (Z.to_nat 0) P []) as [|a [|b [|c l]]]; try discriminate W; [reflexivity|].
  unfold zlen in W; cbn [length] in W; lia.
Qed.

(** ** Witnesses *)
Definition iU : list Binary64 := [0; 0; 0; 0.25; 0.5; 0.75; 1; 1; 1]%float.
Definition iP : list (list Binary64) :=
  [[0; 0; 0]; [1; 2; 0]; [2; 0; 0]; [3; 2; 0]; [4; 0; 0]; [5; 1; 0]]%float.
Definition close64 (a b : Binary64) : bool := isclose a b.
(** Inserting the existing knot 0.75 once: the point at 0.625 moves. *)
Lemma reinsertion_witness :
  check_knot_vector 2 (NdArray iU) 6 = Ok true /\
  find_multiplicity (0.75%float : Binary64) iU = 1%Z /\
  exists (T : list Binary64) (Q : list (list Binary64)) (a b : list Binary64),
    curve_knot_insertion 2 iU iP (0.75%float : Binary64) 1 = Ok (T, Q) /\
    check_knot_vector 2 (NdArray T) (zlen Q) = Ok true /\
    curve_point 2 iP iU (0.625%float : Binary64) = Ok a /\
    curve_point 2 Q T (0.625%float : Binary64) = Ok b /\ allclose a b = Ok false.
Proof. split; [vm_compute; reflexivity|]; split; [vm_compute; reflexivity|].
  do 4 eexists; repeat split; vm_compute; reflexivity. Qed.
(** More insertions than the degree allows are not refused. *)
Definition iL : list Binary64 := [0; 0; 1; 1]%float.
Definition iLP : list (list Binary64) := [[0; 0; 0]; [1; 0; 0]]%float.
Lemma overinsertion_witness :
  check_knot_vector 1 (NdArray iL) 2 = Ok true /\
  find_multiplicity (0.5%float : Binary64) iL = 0%Z /\
  exists (T : list Binary64) (Q : list (list Binary64)) (a b : list Binary64),
    curve_knot_insertion 1 iL iLP (0.5%float : Binary64) 2 = Ok (T, Q) /\
    check_knot_vector 1 (NdArray T) (zlen Q) = Ok true /\
    curve_point 1 iLP iL (0.25%float : Binary64) = Ok a /\
    curve_point 1 Q T (0.25%float : Binary64) = Ok b /\ allclose a b = Ok false.
Proof. split; [vm_compute; reflexivity|]; split; [vm_compute; reflexivity|].
  do 4 eexists; repeat split; vm_compute; reflexivity. Qed.
