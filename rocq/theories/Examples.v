(** Concrete data used by the examples beside the property theorems. *)
From Coq Require Import Sorted.
From Verif Require Import Spec MathCox MathKnots.
Open Scope R_scope.

Lemma nondecreasing_cons x l : Forall (fun y => x <= y) l -> nondecreasing l -> nondecreasing (x :: l).
Proof.
  intros HF HN i j Hij Hj.
  assert (Hlast : forall y t, last (y :: t) 0 = last (y :: t) 0) by reflexivity.
  rewrite !kn_nth by (unfold len in *; cbn [length] in *; lia).
  destruct (Z.eq_dec i 0) as [->|Hi].
  - cbn [Z.to_nat nth]; destruct (Z.to_nat j) as [|k] eqn:Ek; [lra|].
    cbn [nth]; apply (proj1 (Forall_forall _ _) HF); apply nth_In; unfold len in Hj; cbn [length] in Hj; lia.
  - replace (Z.to_nat i) with (S (Z.to_nat (i - 1))) by lia.
    replace (Z.to_nat j) with (S (Z.to_nat (j - 1))) by lia; cbn [nth].
    unfold len in *; cbn [length] in *.
    rewrite <- !kn_nth by (unfold len; lia); apply HN; unfold len; lia.
Qed.
Lemma nondecreasing_nil : nondecreasing [].
Proof. intros i j H1 H2; unfold len in H2; cbn in H2; lia. Qed.
Ltac solve_nondecreasing :=
  repeat (apply nondecreasing_cons; [repeat (apply Forall_cons; [lra|]); apply Forall_nil|]);
  apply nondecreasing_nil.
(** Replace [kn U i] by its value, for a concrete vector and index. *)
Ltac kn_eval :=
  repeat match goal with
  | |- context [kn ?U ?i] =>
      let v := eval lazy -[IZR Rdiv Rminus Rplus Rmult Ropp Rinv] in (kn U i) in change (kn U i) with v
  end.
Ltac solve_clamped := repeat split; try lia; try solve_nondecreasing; kn_eval; lra.

(** Degree 2, six control points, simple interior knots. *)
Definition exU : list R := [0; 0; 0; 1/4; 1/2; 3/4; 1; 1; 1].
Lemma exU_knots : knots_for 2 6 exU.
Proof. unfold exU; solve_clamped. Qed.
Lemma exU_clamped : clamped 2 6 exU.
Proof. unfold exU; solve_clamped. Qed.
(** Degree 3 with a double interior knot. *)
Definition exV : list R := [0; 0; 0; 0; 1/2; 1/2; 1; 1; 1; 1].
Lemma exV_clamped : clamped 3 6 exV.
Proof. unfold exV; solve_clamped. Qed.
(** Degree 1, not normalised. *)
Definition exW : list R := [2; 2; 3; 3].
Lemma exW_clamped : clamped 1 2 exW.
Proof. unfold exW; solve_clamped. Qed.
