(** [basis_functions]: forms used by the property theorems. *)
From Verif Require Import Py PyLemmas Num ModelBasis Spec ProofNum MathCox MathKnots ProofSpan ProofBasis.
Open Scope R_scope.

Lemma basis_functions_bspline U s u p :
  nondecreasing U -> in_span U s u -> (Z.of_nat p <= s)%Z -> (s + Z.of_nat p < len U)%Z ->
  basis_functions s (Fin u : Exact) (Z.of_nat p) (fin U)
  = Ok (fin (map (fun r => bspline U p (s - Z.of_nat p + Z.of_nat r) u) (seq 0 (S p)))).
Proof.
  intros HU HI H1 H2; rewrite basis_functions_pieces; try assumption; try lia.
  - do 2 f_equal; apply (tab_ext (S p) _ (fun r => bspline U p (s - Z.of_nat p + r) u)).
    intros r _; symmetry; apply bspline_piece; assumption.
  - eapply in_span_width; exact HI.
Qed.
Lemma pieces_length U s p u : length (pieces U s p u) = S p.
Proof. apply tab_length. Qed.
Lemma basis_functions_unity U s u p :
  nondecreasing U -> kn U s < kn U (s + 1) -> (Z.of_nat p - 1 <= s)%Z -> (s + Z.of_nat p < len U)%Z ->
  exists l, basis_functions s (Fin u : Exact) (Z.of_nat p) (fin U) = Ok (fin l) /\
            length l = S p /\ fold_right Rplus 0 l = 1.
Proof.
  intros; exists (pieces U s p u); split; [apply basis_functions_pieces; assumption|].
  split; [apply pieces_length|apply pieces_sum; assumption].
Qed.
Lemma basis_functions_range U s u p :
  nondecreasing U -> kn U s < kn U (s + 1) -> (Z.of_nat p - 1 <= s)%Z -> (s + Z.of_nat p < len U)%Z ->
  kn U s <= u <= kn U (s + 1) ->
  exists l, basis_functions s (Fin u : Exact) (Z.of_nat p) (fin U) = Ok (fin l) /\
            length l = S p /\ Forall (fun x => 0 <= x <= 1) l.
Proof.
  intros; exists (pieces U s p u); split; [apply basis_functions_pieces; assumption|].
  split; [apply pieces_length|apply pieces_range; assumption].
Qed.
Lemma basis_functions_start p n U s :
  clamped (Z.of_nat p) n U -> in_span U s (kn U (Z.of_nat p)) ->
  basis_functions s (Fin (kn U (Z.of_nat p)) : Exact) (Z.of_nat p) (fin U) = Ok (fin (1 :: repeat 0 p)).
Proof.
  intros HC HI; rewrite <- (pieces_start p n U s HC HI).
  pose proof (clamped_span_range _ _ _ _ _ HC HI); destruct (clamped_facts _ _ _ HC) as (_ & _ & HL & HU & _).
  apply basis_functions_pieces; try assumption; try lia; eapply in_span_width; exact HI.
Qed.
Lemma basis_functions_end p n U s :
  clamped (Z.of_nat p) n U -> in_span U s (kn U n) ->
  basis_functions s (Fin (kn U n) : Exact) (Z.of_nat p) (fin U) = Ok (fin (repeat 0 p ++ [1])).
Proof.
  intros HC HI; rewrite <- (pieces_end p n U s HC HI).
  pose proof (clamped_span_range _ _ _ _ _ HC HI); destruct (clamped_facts _ _ _ HC) as (_ & _ & HL & HU & _).
  apply basis_functions_pieces; try assumption; try lia; eapply in_span_width; exact HI.
Qed.
