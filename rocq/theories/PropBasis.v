(** C16-C20: the non-vanishing basis functions. *)
From Coq Require Import Floats.
From Verif Require Import Py Num ModelKnots ModelBasis Spec MathKnots ProofBasis ProofBasis2 Examples.
Open Scope R_scope.

(** C16 *)
Theorem C16_basis_functions_cox_de_boor : forall U s u p,
  nondecreasing U -> in_span U s u -> (Z.of_nat p <= s)%Z -> (s + Z.of_nat p < len U)%Z ->
  basis_functions s (Fin u : Exact) (Z.of_nat p) (fin U)
  = Ok (fin (map (fun r => bspline U p (s - Z.of_nat p + Z.of_nat r) u) (seq 0 (S p)))).
Proof. exact basis_functions_bspline. Qed.
Print Assumptions C16_basis_functions_cox_de_boor.
(** The same outside the span, where the result is the continuation of the
    polynomial pieces: no division by zero on any non-empty span. *)
Theorem C16_basis_functions_pieces : forall U s u p,
  nondecreasing U -> kn U s < kn U (s + 1) -> (Z.of_nat p - 1 <= s)%Z -> (s + Z.of_nat p < len U)%Z ->
  basis_functions s (Fin u : Exact) (Z.of_nat p) (fin U)
  = Ok (fin (map (fun r => piece U s p (s - Z.of_nat p + Z.of_nat r) u) (seq 0 (S p)))).
Proof. exact basis_functions_pieces. Qed.
Print Assumptions C16_basis_functions_pieces.
Example C16_example : nondecreasing exU /\ in_span exU 3 (1/3) /\ (2 <= 3)%Z /\ (3 + 2 < len exU)%Z.
Proof.
  split; [apply exU_knots|split; [left; kn_eval; lra|split; [lia|unfold len; cbn; lia]]].
Qed.

(** C17 *)
Theorem C17_partition_of_unity : forall U s u p,
  nondecreasing U -> kn U s < kn U (s + 1) -> (Z.of_nat p - 1 <= s)%Z -> (s + Z.of_nat p < len U)%Z ->
  exists l, basis_functions s (Fin u : Exact) (Z.of_nat p) (fin U) = Ok (fin l) /\
            length l = S p /\ fold_right Rplus 0 l = 1.
Proof. exact basis_functions_unity. Qed.
Print Assumptions C17_partition_of_unity.
Example C17_example : nondecreasing exV /\ kn exV 5 < kn exV 6.
Proof. split; [apply exV_clamped|kn_eval; lra]. Qed.

(** C18 *)
Theorem C18_nonnegative : forall U s u p,
  nondecreasing U -> kn U s < kn U (s + 1) -> (Z.of_nat p - 1 <= s)%Z -> (s + Z.of_nat p < len U)%Z ->
  kn U s <= u <= kn U (s + 1) ->
  exists l, basis_functions s (Fin u : Exact) (Z.of_nat p) (fin U) = Ok (fin l) /\
            length l = S p /\ Forall (fun x => 0 <= x <= 1) l.
Proof. exact basis_functions_range. Qed.
Print Assumptions C18_nonnegative.
Example C18_example : nondecreasing exV /\ kn exV 3 < kn exV 4 /\ kn exV 3 <= 1/3 <= kn exV 4.
Proof. split; [apply exV_clamped|kn_eval; lra]. Qed.

(** C19 *)
Theorem C19_clamped_start : forall p n U s,
  clamped (Z.of_nat p) n U -> in_span U s (kn U (Z.of_nat p)) ->
  basis_functions s (Fin (kn U (Z.of_nat p)) : Exact) (Z.of_nat p) (fin U) = Ok (fin (1 :: repeat 0 p)).
Proof. exact basis_functions_start. Qed.
Print Assumptions C19_clamped_start.
Theorem C19_clamped_end : forall p n U s,
  clamped (Z.of_nat p) n U -> in_span U s (kn U n) ->
  basis_functions s (Fin (kn U n) : Exact) (Z.of_nat p) (fin U) = Ok (fin (repeat 0 p ++ [1])).
Proof. exact basis_functions_end. Qed.
Print Assumptions C19_clamped_end.
Example C19_example : clamped (Z.of_nat 2) 6 exU /\ in_span exU 2 (kn exU (Z.of_nat 2)) /\ in_span exU 5 (kn exU 6).
Proof.
  split; [exact exU_clamped|split; [left|right]; kn_eval; cbn [exU last]; lra].
Qed.

(** C20 *)
Theorem C20_empty_span_nan : forall U s u p,
  kn U s = u -> kn U (s + 1) = u -> (1 <= p)%nat -> (Z.of_nat p - 1 <= s)%Z -> (s + Z.of_nat p < len U)%Z ->
  basis_functions s (Fin u : Exact) (Z.of_nat p) (fin U) = Ok (repeat (NaN : Exact) (S p)).
Proof. exact basis_functions_empty. Qed.
Print Assumptions C20_empty_span_nan.
Example C20_example : kn exV 4 = 1/2 /\ kn exV (4 + 1) = 1/2 /\ (Z.of_nat 3 - 1 <= 4)%Z /\ (4 + Z.of_nat 3 < len exV)%Z.
Proof. repeat split; kn_eval; try lra; unfold len; cbn; lia. Qed.
