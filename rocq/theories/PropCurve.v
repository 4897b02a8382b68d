(** C20 (curves) and C28-C38: curve objects. *)
From Coq Require Import Floats.
From Verif Require Import Py Num ModelKnots ModelBasis ModelCurve Spec MathKnots ProofNum ProofSpan2 ProofCurve ProofCurve2 ProofInsert2 ProofInsert3 Examples PropInsert.
Open Scope R_scope.

Lemma exU_strict : strict 2 6 exU.
Proof. intros i Hi; assert (i = 2 \/ i = 3 \/ i = 4 \/ i = 5)%Z as [->|[->|[->| ->]]] by lia; unfold exU; kn_eval; lra. Qed.
Lemma exP_3 : Forall (fun row => length row = 3%nat) exP.
Proof. repeat constructor. Qed.

(** ** C28: the value is the B-spline sum. *)
Theorem C28_curve_is_sum : forall p U P d u s,
  clamped (Z.of_nat p) (len P) U -> Forall (fun row => length row = 3%nat) P -> 0 <= u <= 1 ->
  find_span (len P) (Z.of_nat p) (Fin u : Exact) (fin U) = Ok s ->
  kn U s <= u <= kn U (s + 1) -> kn U s < kn U (s + 1) ->
  u < kn U (s + 1) \/ continuous (Z.of_nat p) (len P) U ->
  single_point (curve_of (Z.of_nat p) U P d) (Fin u : Exact) = Ok (fin (curve_xyz U p P u)).
Proof. exact single_point_on_span. Qed.
Print Assumptions C28_curve_is_sum.

(** With distinct interior knots, at every parameter outside the tolerance of
    the right end (and inside it, when the last span is wider than it). *)
Theorem C28_curve_is_sum_everywhere : forall p U P d u,
  clamped (Z.of_nat p) (len P) U -> (1 <= p)%nat -> Forall (fun row => length row = 3%nat) P ->
  kn U (Z.of_nat p) = 0 -> kn U (len P) = 1 -> strict (Z.of_nat p) (len P) U -> 0 <= u <= 1 ->
  (close (1/1000000) (1/100000000) u 1 -> kn U (len P - 1) <= u) ->
  single_point (curve_of (Z.of_nat p) U P d) (Fin u : Exact) = Ok (fin (curve_xyz U p P u)).
Proof. exact single_point_strict. Qed.
Print Assumptions C28_curve_is_sum_everywhere.
Example C28_example :
  clamped (Z.of_nat 2) (len exP) exU /\ Forall (fun row => length row = 3%nat) exP /\
  kn exU (Z.of_nat 2) = 0 /\ kn exU (len exP) = 1 /\ strict (Z.of_nat 2) (len exP) exU /\
  (close (1/1000000) (1/100000000) (3/5) 1 -> kn exU (len exP - 1) <= 3/5).
Proof.
  split; [exact exU_clamped|]; split; [exact exP_3|]; split; [unfold exU; kn_eval; reflexivity|].
  split; [unfold exU, exP; kn_eval; reflexivity|]; split; [exact exU_strict|].
  unfold close; rewrite Rabs_left, Rabs_right by lra; lra.
Qed.

(** Parameters that are not finite numbers of [0,1]: ValueError. *)
Theorem C28_curve_outside : forall (c : curve_obj Exact) (u : Exact),
  (forall x, u = Fin x -> x < 0 \/ 1 < x) -> single_point c u = Err ValueError.
Proof. exact single_point_outside. Qed.
Print Assumptions C28_curve_outside.
Theorem C28_curve_rejects : forall (K : Num) (c : curve_obj K) (u : K),
  nleb 0%num u = false \/ nleb u 1%num = false -> single_point c u = Err ValueError.
Proof. exact single_point_rejects. Qed.
Print Assumptions C28_curve_rejects.
Example C28_rejects_example : nleb (0%num : Binary64) nan = false /\ nleb (1.5%float : Binary64) 1%num = false.
Proof. vm_compute; auto. Qed.

(** On an empty span every coordinate is NaN. *)
Theorem C20_curve_empty_span_nan : forall p U P d u s,
  len U = (len P + Z.of_nat p + 1)%Z -> Forall (fun row => length row = 3%nat) P -> 0 <= u <= 1 -> (1 <= p)%nat ->
  find_span (len P) (Z.of_nat p) (Fin u : Exact) (fin U) = Ok s -> (Z.of_nat p <= s < len P)%Z ->
  kn U s = u -> kn U (s + 1) = u ->
  single_point (curve_of (Z.of_nat p) U P d) (Fin u : Exact) = Ok [NaN; NaN; NaN].
Proof. exact single_point_empty_span. Qed.
Print Assumptions C20_curve_empty_span_nan.
(** It happens in double precision on a valid curve with a double knot. *)
Definition wP : list (list Binary64) := [[0;0;0]; [1;2;0]; [2;0;1]; [3;2;0]; [4;0;2]; [5;1;0]]%float.
Theorem C20_curve_double_knot_refuted : exists (kv : list Binary64) (P : list (list Binary64)) p u,
  check_knot_vector p (NdArray kv) (zlen P) = Ok true /\ validate_knot u = true /\
  exists x y z, single_point (mkCurve (Some p) (Some P) (Some kv) 3) u = Ok [x; y; z] /\
    neqb x x = false /\ neqb y y = false /\ neqb z z = false.
Proof.
  exists wU, wP, 2%Z, (0.5%float : Binary64); split; [vm_compute; reflexivity|]; split; [vm_compute; reflexivity|].
  exists nan, nan, nan; vm_compute; auto.
Qed.
Print Assumptions C20_curve_double_knot_refuted.

(** Inside the tolerance of the right end the last span is used even when the
    parameter lies in an earlier one: the point is then not the B-spline sum. *)
Definition tU : list Binary64 := [0; 0; 0.99999988079071044921875; 1; 1]%float.
Definition tP : list (list Binary64) := [[0;0;0]; [1;0;0]; [1;1;0]]%float.
Theorem C28_curve_tolerance_refuted : exists (kv : list Binary64) (P : list (list Binary64)) p u v,
  check_knot_vector p (NdArray kv) (zlen P) = Ok true /\ validate_knot u = true /\
  forallb (fun row => forallb (fun x => nleb 0%num x && nleb x 1%num) row) P = true /\
  single_point (mkCurve (Some p) (Some P) (Some kv) 3) u = Ok v /\
  existsb (fun x => nltb x 0%num) v = true.
Proof.
  exists tU, tP, 1%Z, (0.999999523162841796875%float : Binary64).
  exists (match single_point (mkCurve (Some 1%Z) (Some tP) (Some tU) 3) (0.999999523162841796875%float : Binary64) with Ok v => v | _ => [] end).
  vm_compute; auto.
Qed.
Print Assumptions C28_curve_tolerance_refuted.

(** ** C29: end points. *)
Theorem C29_curve_ends : forall p U P d,
  tight (Z.of_nat p) (len P) U -> Forall (fun row => length row = 3%nat) P ->
  kn U (Z.of_nat p) = 0 -> kn U (len P) = 1 ->
  single_point (curve_of (Z.of_nat p) U P d) (Fin 0 : Exact) = Ok (fin (nth 0 P [])) /\
  single_point (curve_of (Z.of_nat p) U P d) (Fin 1 : Exact) = Ok (fin (last P [])).
Proof. exact single_point_ends. Qed.
Print Assumptions C29_curve_ends.
Example C29_example : tight (Z.of_nat 2) (len exP) exU /\ kn exU (Z.of_nat 2) = 0 /\ kn exU (len exP) = 1.
Proof.
  split; [split; [exact exU_clamped|]|]; unfold exU, exP; kn_eval; lra.
Qed.
(** One end knot too many and the point is NaN. *)
Theorem C29_overclamped_refuted : exists (kv : list Binary64) (P : list (list Binary64)) p,
  check_knot_vector p (NdArray kv) (zlen P) = Ok true /\
  exists x y z, single_point (mkCurve (Some p) (Some P) (Some kv) 3) 1%num = Ok [x; y; z] /\
    neqb x x = false /\ neqb y y = false /\ neqb z z = false.
Proof.
  exists [0; 0; 0; 1; 1; 1; 1]%float, [[0;0;0]; [1;2;0]; [2;0;1]; [3;2;0]]%float, 2%Z.
  split; [vm_compute; reflexivity|]; exists nan, nan, nan; vm_compute; auto.
Qed.
Print Assumptions C29_overclamped_refuted.

(** ** C30: bounding box of the active control points. *)
Theorem C30_curve_box : forall p U P d u s,
  knots_for (Z.of_nat p) (len P) U -> Forall (fun row => length row = 3%nat) P -> 0 <= u <= 1 ->
  find_span (len P) (Z.of_nat p) (Fin u : Exact) (fin U) = Ok s -> (Z.of_nat p <= s < len P)%Z ->
  kn U s < kn U (s + 1) -> kn U s <= u <= kn U (s + 1) ->
  exists v, single_point (curve_of (Z.of_nat p) U P d) (Fin u : Exact) = Ok (fin v) /\ length v = 3%nat /\
    forall c lo hi, (c < 3)%nat ->
      (forall m, (s - Z.of_nat p <= m <= s)%Z -> lo <= nth c (nth (Z.to_nat m) P []) 0 <= hi) -> lo <= nth c v 0 <= hi.
Proof. exact single_point_box. Qed.
Print Assumptions C30_curve_box.

(** ** C31: affine invariance. *)
Theorem C31_curve_affine : forall p U P d u s M b,
  knots_for (Z.of_nat p) (len P) U -> Forall (fun row => length row = 3%nat) P -> 0 <= u <= 1 ->
  find_span (len P) (Z.of_nat p) (Fin u : Exact) (fin U) = Ok s -> (Z.of_nat p <= s < len P)%Z ->
  kn U s < kn U (s + 1) ->
  exists v, single_point (curve_of (Z.of_nat p) U P d) (Fin u : Exact) = Ok (fin v) /\
    single_point (curve_of (Z.of_nat p) U (map (affine M b) P) d) (Fin u : Exact) = Ok (fin (affine M b v)).
Proof. exact single_point_affine. Qed.
Print Assumptions C31_curve_affine.
(** The hypotheses of C28 (first theorem), C30 and C31 on the example curve. *)
Example C30_example : exists s, find_span (len exP) 2 (Fin (3/5) : Exact) (fin exU) = Ok s /\ (2 <= s < len exP)%Z /\
  kn exU s < kn exU (s + 1) /\ kn exU s <= 3/5 <= kn exU (s + 1).
Proof.
  destruct (find_span_strict 2 6 exU (3/5) exU_clamped exU_strict) as (s & E & H1 & H2 & H3).
  - unfold exU; kn_eval; lra.
  - unfold exU; kn_eval; unfold close; rewrite Rabs_left, Rabs_right by lra; lra.
  - exists s; auto.
Qed.

(** ** C32: locality; control points of any dimension. *)
Theorem C32_curve_local : forall p U P P' d u i,
  knots_for (Z.of_nat p) (len P) U -> length P = length P' ->
  (0 <= i < len P)%Z -> (forall j, j <> Z.to_nat i -> nth j P [] = nth j P' []) ->
  0 <= u <= 1 -> kn U (Z.of_nat p) = 0 -> kn U (len P) = 1 ->
  (close (1/1000000) (1/100000000) u 1 -> kn U (len P - 1) <= u) ->
  u < kn U i \/ kn U (i + Z.of_nat p + 1) < u ->
  single_point (curve_of (Z.of_nat p) U P d) (Fin u : Exact) = single_point (curve_of (Z.of_nat p) U P' d) (Fin u : Exact).
Proof. exact single_point_local. Qed.
Print Assumptions C32_curve_local.
Example C32_example :
  let P' := [[0;0;0]; [7;7;7]; [2;0;1]; [3;2;0]; [4;0;2]; [5;1;0]] in
  knots_for (Z.of_nat 2) (len exP) exU /\ length exP = length P' /\
  (forall j, j <> Z.to_nat 1 -> nth j exP [] = nth j P' []) /\ kn exU (1 + Z.of_nat 2 + 1) < 3/5.
Proof.
  split; [exact exU_knots|]; split; [reflexivity|]; split; [|unfold exU; kn_eval; lra].
  intros [|[|j]] H; [reflexivity|exfalso; apply H; reflexivity|reflexivity].
Qed.

(** ** C33: points. *)
Theorem C33_points_rows : forall (K : Num) (c : curve_obj K) (l : list K) rows,
  points c (ND1 l) = Ok rows <-> Forall2 (fun u row => single_point c u = Ok row) l rows.
Proof. exact points_spec. Qed.
Print Assumptions C33_points_rows.
Theorem C33_points_raise : forall (K : Num) (c : curve_obj K) (l : list K) e,
  points c (ND1 l) = Err e <->
  exists l1 u l2 rows, l = l1 ++ u :: l2 /\ points c (ND1 l1) = Ok rows /\ single_point c u = Err e.
Proof. exact points_raise. Qed.
Print Assumptions C33_points_raise.
Theorem C33_points_rank : forall (K : Num) (c : curve_obj K) (a : ndarray K),
  (forall l, a <> ND1 l) -> points c a = Err ValueError.
Proof. exact points_rank. Qed.
Print Assumptions C33_points_rank.
Example C33_example : let c := mkCurve (Some 2%Z) (Some iP) (Some iU) 3 in
  (exists rows, points c (ND1 ([0; 0.25; 1]%float : list Binary64)) = Ok rows /\ zlen rows = 3%Z) /\
  points c (ND1 ([0; 2]%float : list Binary64)) = Err ValueError.
Proof.
  cbv zeta; split; [|vm_compute; reflexivity].
  exists (match points (mkCurve (Some 2%Z) (Some iP) (Some iU) 3) (ND1 ([0; 0.25; 1]%float : list Binary64)) with Ok v => v | _ => [] end).
  vm_compute; auto.
Qed.

(** ** C34: derivatives never returns a value. *)
Theorem C34_derivatives_never : forall (K : Num) (c : curve_obj K) (u : K) order nrm x,
  derivatives c u order nrm <> Ok x.
Proof. exact derivatives_fail. Qed.
Print Assumptions C34_derivatives_never.
Theorem C34_derivatives_low_order : forall (K : Num) (c : curve_obj K) (u : K) order nrm,
  (order <= 1)%Z -> derivatives c u order nrm = Err ValueError.
Proof. exact derivatives_order. Qed.
Print Assumptions C34_derivatives_low_order.
Example C34_example : derivatives (mkCurve (Some 2%Z) (Some iP) (Some iU) 3) (0.25%float : Binary64) 2 false = Err ValueError.
Proof. vm_compute; reflexivity. Qed.

(** ** C35: what a history of assignments leaves. *)
Theorem C35_never_stored : forall (K : Num) (degree dimension : option Z) (ops : list (curve_op K)) (u : K),
  let c := curve_run (curve_init degree dimension) ops in
  c_ctrl c = None /\ c_kv c = None /\ (validate_knot u = true -> single_point c u = Err TypeError).
Proof. exact history_curve. Qed.
Print Assumptions C35_never_stored.
Example C35_example : let ops := [OpDegree 2%Z; OpControlPoints iP; OpKnotVector (NdArray iU)] in
  validate_knot (0.25%float : Binary64) = true /\
  c_degree (curve_run (curve_init None (Some 3%Z)) ops) = Some 2%Z /\
  curve_step (curve_run (curve_init None (Some 3%Z)) [OpDegree 2%Z]) (OpControlPoints iP)
    = (mkCurve (Some 2%Z) None None 3, None).
Proof. cbv zeta; split; [vm_compute; reflexivity|]; split; reflexivity. Qed.

(** ** C36: setter guards. *)
Theorem C36_setters : forall (K : Num) (c : curve_obj K),
  (forall d, (d < 1)%Z -> curve_step c (OpDegree d) = (c, Some ValueError)) /\
  (forall d, (1 <= d)%Z -> curve_step c (OpDegree d) = (mkCurve (Some d) (c_ctrl c) (c_kv c) (c_dim c), None)) /\
  (c_degree c = None -> forall a, curve_step c (OpControlPoints a) = (c, Some ValueError)) /\
  (forall a, match a with [] => 0%Z | row :: _ => zlen row end <> c_dim c -> curve_step c (OpControlPoints a) = (c, Some ValueError)) /\
  (forall a, match a with [] => 0%Z | row :: _ => zlen row end = c_dim c -> c_degree c <> None -> curve_step c (OpControlPoints a) = (c, None)) /\
  (c_degree c = None \/ c_ctrl c = None -> forall kv, curve_step c (OpKnotVector kv) = (c, Some ValueError)) /\
  (forall p P kv, c_degree c = Some p -> c_ctrl c = Some P -> check_knot_vector p kv (zlen P) = Ok false ->
     curve_step c (OpKnotVector kv) = (c, None)) /\
  (forall p P l, c_degree c = Some p -> c_ctrl c = Some P -> check_knot_vector p (NdArray l) (zlen P) = Ok true ->
     curve_step c (OpKnotVector (NdArray l)) = (mkCurve (Some p) (Some P) (Some l) (c_dim c), None)).
Proof. exact setter_guards. Qed.
Print Assumptions C36_setters.
Theorem C36_degree_of_history : forall (K : Num) (dimension : option Z) (ops : list (curve_op K)) d,
  c_degree (curve_run (curve_init None dimension) ops) = Some d -> (1 <= d)%Z.
Proof. exact history_degree. Qed.
Print Assumptions C36_degree_of_history.
(** The constructor checks nothing. *)
Theorem C36_constructor_unchecked : forall (K : Num) d, c_degree (curve_init (K := K) (Some d) None) = Some d.
Proof. exact constructor_unchecked. Qed.
Print Assumptions C36_constructor_unchecked.
Example C36_example :
  check_knot_vector 2 (NdArray iU) (zlen iP) = Ok true /\
  check_knot_vector 1 (NdArray iU) (zlen iP) = Ok false /\
  c_degree (curve_run (curve_init (K := Binary64) None None) [OpDegree 0%Z; OpDegree 3%Z]) = Some 3%Z.
Proof. split; [vm_compute; reflexivity|]; split; [vm_compute; reflexivity|reflexivity]. Qed.

(** ** C37: insert_knot. *)
Theorem C37_insert_knot_fails : forall (K : Num) (c : curve_obj K) u,
  curve_step c (OpInsertKnot u) = (c, Some UnboundLocalError).
Proof. exact insert_knot_fails. Qed.
Print Assumptions C37_insert_knot_fails.
(** Whatever the unassigned local held, a consistent object would not change. *)
Theorem C37_insert_knot_body_unchanged : forall (K : Num) (c c' : curve_obj K) knot_val knot p P kv,
  c_degree c = Some p -> c_ctrl c = Some P -> c_kv c = Some kv -> zlen kv = (zlen P + p + 1)%Z ->
  insert_knot_body c knot_val knot = Ok c' -> c' = c.
Proof. exact insert_knot_body_unchanged. Qed.
Print Assumptions C37_insert_knot_body_unchanged.
Example C37_example : zlen iU = (zlen iP + 2 + 1)%Z /\
  exists c', insert_knot_body (mkCurve (Some 2%Z) (Some iP) (Some iU) 3) (0.625%float : Binary64) 0.625%float = Ok c'.
Proof.
  split; [vm_compute; reflexivity|].
  exists (mkCurve (Some 2%Z) (Some iP) (Some iU) 3); vm_cast_no_check (@eq_refl (res (curve_obj Binary64)) (Ok (mkCurve (Some 2%Z) (Some iP) (Some iU) 3))).
Qed.

(** ** C38: dictionaries. *)
Theorem C38_to_dict_fails : forall (K : Num) (c : curve_obj K), to_dict c = Err AttributeError.
Proof. exact to_dict_fails. Qed.
Print Assumptions C38_to_dict_fails.
Theorem C38_from_dict : forall (K : Num) (cs : class_state K) (d : dict K),
  ((forall k, In k (d_keys d) <-> (k = KDegree \/ k = KKnotVector \/ k = KControlPoints)) ->
     exists cs', from_dict cs d = (cs', Ok TheClass) /\
       handle_ctrl cs' TheClass = Some (d_ctrl d) /\ handle_kv cs' TheClass = Some (d_kv d)) /\
  (~ (forall k, In k (d_keys d) <-> (k = KDegree \/ k = KKnotVector \/ k = KControlPoints)) ->
     from_dict cs d = (cs, Err ValueError)).
Proof. exact from_dict_spec. Qed.
Print Assumptions C38_from_dict.
Theorem C38_from_dict_aliases : forall (K : Num) (cs cs1 cs2 : class_state K) d1 d2 h1 h2,
  from_dict cs d1 = (cs1, Ok h1) -> from_dict cs1 d2 = (cs2, Ok h2) ->
  handle_ctrl cs2 h1 = Some (d_ctrl d2) /\ handle_ctrl cs2 h2 = Some (d_ctrl d2) /\
  handle_kv cs2 h1 = Some (d_kv d2) /\ handle_kv cs2 h2 = Some (d_kv d2).
Proof. exact from_dict_aliases. Qed.
Print Assumptions C38_from_dict_aliases.
Example C38_example :
  let d1 := mkDict [KControlPoints; KDegree; KKnotVector] 2 iU iP in
  let d2 := mkDict [KDegree; KKnotVector; KControlPoints] 1 iL iLP in
  snd (from_dict (mkClass None None) d1) = Ok TheClass /\
  snd (from_dict (fst (from_dict (mkClass None None) d1)) d2) = Ok TheClass /\
  from_dict (mkClass None None) (mkDict [KDegree; KKnotVector] 2 iU iP) = (mkClass None None, Err ValueError) /\
  from_dict (mkClass None None) (mkDict [KDegree; KKnotVector; KControlPoints; KOther 7] 2 iU iP) = (mkClass None None, Err ValueError).
Proof. repeat split. Qed.
