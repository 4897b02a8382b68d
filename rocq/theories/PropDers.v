(** C21-C27: single basis functions and derivatives of basis functions. *)
From Coq Require Import Floats.
From Verif Require Import Py Num ModelKnots ModelBasis Spec MathKnots ProofDers2 ProofOneDers Examples.
Open Scope R_scope.

Lemma exU_tight : tight (Z.of_nat 2) (Z.of_nat 6) exU.
Proof. split; [exact exU_clamped|split; kn_eval; lra]. Qed.

(** C21 *)
Theorem C21_one_basis_function_cox_de_boor : forall p n U i u,
  tight (Z.of_nat p) n U -> (0 <= i < n)%Z ->
  one_basis_function (Z.of_nat p) (fin U) i (Fin u : Exact) = Ok (Fin (bspline U p i u)).
Proof. exact one_basis_tight. Qed.
Print Assumptions C21_one_basis_function_cox_de_boor.
Example C21_example : tight (Z.of_nat 2) 6 exU /\ (0 <= 5 < 6)%Z.
Proof. split; [exact exU_tight|lia]. Qed.
(** With a further repeated end knot (accepted by check_knot_vector) the
    function of index 0, whose support is a point, is reported as 1. *)
Theorem C21_over_clamped_refuted : exists (U : list Binary64) (u : Binary64),
  check_knot_vector 2 (NdArray U) 4 = Ok true /\
  one_basis_function 2 U 0 u = Ok (1%float : Binary64) /\
  one_basis_function 2 U 1 u = Ok (1%float : Binary64) /\
  find_span 4 2 u U = Ok 3%Z /\
  basis_functions 3 u 2 U = Ok ([1; 0; 0]%float : list Binary64).
Proof. exists wO, 0%float; exact over_clamped_witness. Qed.
Print Assumptions C21_over_clamped_refuted.

(** C22 *)
Theorem C22_single_and_batch_agree : forall p n U s u, tight (Z.of_nat p) n U -> in_span U s u ->
  exists l, basis_functions s (Fin u : Exact) (Z.of_nat p) (fin U) = Ok (fin l) /\ length l = S p /\
    (forall r, (r <= p)%nat ->
       one_basis_function (Z.of_nat p) (fin U) (s - Z.of_nat p + Z.of_nat r) (Fin u : Exact) = Ok (Fin (nth r l 0))) /\
    (forall i, (0 <= i < n)%Z -> (i < s - Z.of_nat p \/ s < i)%Z ->
       one_basis_function (Z.of_nat p) (fin U) i (Fin u : Exact) = Ok (0 : Exact)%num).
Proof. exact one_basis_agrees. Qed.
Print Assumptions C22_single_and_batch_agree.
Example C22_example : tight (Z.of_nat 2) 6 exU /\ in_span exU 4 (3/5).
Proof. split; [exact exU_tight|left; kn_eval; lra]. Qed.

(** C23 *)
Theorem C23_single_functions_sum_to_one : forall p n U u,
  tight (Z.of_nat p) (Z.of_nat n) U -> kn U 0 <= u <= last U 0 ->
  exists l, mapM (fun i => one_basis_function (Z.of_nat p) (fin U) i (Fin u : Exact)) (zrange 0 (Z.of_nat n)) = Ok (fin l) /\
    length l = n /\ Forall (fun x => 0 <= x <= 1) l /\ fold_right Rplus 0 l = 1.
Proof. exact one_basis_sum. Qed.
Print Assumptions C23_single_functions_sum_to_one.
Example C23_example : tight (Z.of_nat 2) (Z.of_nat 6) exU /\ kn exU 0 <= 1 <= last exU 0.
Proof. split; [exact exU_tight|kn_eval; cbn; lra]. Qed.

(** C24 *)
Theorem C24_column_zero_is_basis_functions : forall U s u p order,
  nondecreasing U -> kn U s < kn U (s + 1) -> (Z.of_nat p - 1 <= s)%Z -> (s + Z.of_nat p < len U)%Z ->
  exists m l, basis_function_ders s (Fin u : Exact) (Z.of_nat p) (fin U) (Z.of_nat order) = Ok (fin2 m) /\
    basis_functions s (Fin u : Exact) (Z.of_nat p) (fin U) = Ok (fin l) /\
    length l = S p /\ length m = S p /\ map (fun row => nth 0 row 0) m = l.
Proof. exact ders_col0. Qed.
Print Assumptions C24_column_zero_is_basis_functions.
Example C24_example : nondecreasing exV /\ kn exV 5 < kn exV (5 + 1) /\ (Z.of_nat 3 - 1 <= 5)%Z /\ (5 + Z.of_nat 3 < len exV)%Z.
Proof. split; [apply exV_clamped|split; [kn_eval; lra|split; [lia|unfold len; cbn; lia]]]. Qed.

(** C25 (every requested order, above the degree too) *)
Theorem C25_true_derivatives : forall U s u p order,
  nondecreasing U -> kn U s < kn U (s + 1) -> (Z.of_nat p - 1 <= s)%Z -> (s + Z.of_nat p < len U)%Z ->
  exists m, basis_function_ders s (Fin u : Exact) (Z.of_nat p) (fin U) (Z.of_nat order) = Ok (fin2 m) /\
    length m = S p /\ Forall (fun row => length row = S order) m /\
    forall r k, (r <= p)%nat -> (k <= order)%nat ->
      exists g, nth_derivative k (piece U s p (s - Z.of_nat p + Z.of_nat r)) g /\ nth k (nth r m []) 0 = g u.
Proof. exact ders_true. Qed.
Print Assumptions C25_true_derivatives.
(** [piece] is the basis function itself on the whole span, so these are its
    one-sided derivatives. *)
Theorem C25_piece_is_basis_function : forall U s u p i,
  nondecreasing U -> in_span U s u -> bspline U p i u = piece U s p i u.
Proof. intros U s u p i HU HI; exact (bspline_piece U s u HU HI p i). Qed.
Print Assumptions C25_piece_is_basis_function.
Example C25_example : nondecreasing exU /\ in_span exU 3 (1/3) /\ kn exU 3 < kn exU (3 + 1).
Proof. split; [apply exU_knots|split; [left|]; kn_eval; lra]. Qed.

(** C26 *)
Theorem C26_derivatives_sum_to_zero : forall U s u p order k,
  nondecreasing U -> kn U s < kn U (s + 1) -> (Z.of_nat p - 1 <= s)%Z -> (s + Z.of_nat p < len U)%Z ->
  (1 <= k <= order)%nat ->
  exists m, basis_function_ders s (Fin u : Exact) (Z.of_nat p) (fin U) (Z.of_nat order) = Ok (fin2 m) /\
    length m = S p /\ fold_right Rplus 0 (map (fun row => nth k row 0) m) = 0.
Proof. exact ders_sum. Qed.
Print Assumptions C26_derivatives_sum_to_zero.
Example C26_example : nondecreasing exV /\ kn exV 3 < kn exV (3 + 1) /\ (1 <= 2 <= 3)%nat.
Proof. split; [apply exV_clamped|split; [kn_eval; lra|lia]]. Qed.

(** C27 *)
Theorem C27_single_derivatives : forall U i u p order,
  nondecreasing U -> (0 <= i)%Z -> (i + Z.of_nat p + 1 < len U)%Z -> (order <= p)%nat ->
  kn U i <= u < kn U (i + Z.of_nat p + 1) ->
  exists s d, (i <= s <= i + Z.of_nat p)%Z /\ kn U s <= u < kn U (s + 1) /\
    one_basis_function_ders (Z.of_nat p) (fin U) i (Fin u : Exact) (Z.of_nat order) = Ok (fin d) /\ length d = S order /\
    nth 0 d 0 = bspline U p i u /\
    forall k, (k <= order)%nat -> exists g, nth_derivative k (piece U s p i) g /\ nth k d 0 = g u.
Proof. exact one_basis_ders_true. Qed.
Print Assumptions C27_single_derivatives.
Theorem C27_zero_outside : forall U i u p,
  (0 <= i)%Z -> (i + Z.of_nat p + 1 < len U)%Z -> forall order,
  u < kn U i \/ kn U (i + Z.of_nat p + 1) <= u ->
  one_basis_function_ders (Z.of_nat p) (fin U) i (Fin u : Exact) (Z.of_nat order) = Ok (fin (repeat 0 (S order))).
Proof. exact obd_outside_zero. Qed.
Print Assumptions C27_zero_outside.
(** An order above the degree raises inside the support. *)
Theorem C27_order_above_degree_raises : forall U i u p,
  nondecreasing U -> (0 <= i)%Z -> (i + Z.of_nat p + 1 < len U)%Z -> forall order,
  kn U i <= u < kn U (i + Z.of_nat p + 1) -> (p < order)%nat ->
  one_basis_function_ders (Z.of_nat p) (fin U) i (Fin u : Exact) (Z.of_nat order) = Err IndexError.
Proof. exact obd_order_above. Qed.
Print Assumptions C27_order_above_degree_raises.
(** At the right end the two single-function evaluators disagree, for every knot vector. *)
Theorem C27_right_end_disagreement : forall p n U order, tight (Z.of_nat p) n U ->
  one_basis_function (Z.of_nat p) (fin U) (n - 1) (Fin (kn U n) : Exact) = Ok (1 : Exact)%num /\
  one_basis_function_ders (Z.of_nat p) (fin U) (n - 1) (Fin (kn U n) : Exact) (Z.of_nat order) = Ok (fin (repeat 0 (S order))).
Proof. exact one_ders_end. Qed.
Print Assumptions C27_right_end_disagreement.
Example C27_example : nondecreasing exV /\ (2 + Z.of_nat 3 + 1 < len exV)%Z /\
  kn exV 2 <= 1/2 < kn exV (2 + Z.of_nat 3 + 1) /\ tight (Z.of_nat 2) 6 exU.
Proof. split; [apply exV_clamped|split; [unfold len; cbn; lia|split; [kn_eval; lra|exact exU_tight]]]. Qed.
