(** Infinities, NaN and rounding to whole numbers in the two arithmetics (C121; model: Num.v). *)
From Coq Require Import Floats Reals Lra Lia.
From Verif Require Import Py Num ModelKnots SpecB64 SpecSpecial ProofSpecial.
Open Scope R_scope.

Theorem C121_compare : forall x y : carrier Binary64,
  @nltb Binary64 x y = @nltb Exact (image x) (image y) /\ @nleb Binary64 x y = @nleb Exact (image x) (image y) /\ @neqb Binary64 x y = @neqb Exact (image x) (image y).
Proof. exact image_compare. Qed.
Print Assumptions C121_compare.
Theorem C121_special : forall x y : carrier Binary64, ~ finite64 x \/ ~ finite64 y ->
  image (@nadd Binary64 x y) = @nadd Exact (image x) (image y) /\ image (@nsub Binary64 x y) = @nsub Exact (image x) (image y) /\
  image (@nmul Binary64 x y) = @nmul Exact (image x) (image y) /\ (~ negative_zero y -> image (@ndiv Binary64 x y) = @ndiv Exact (image x) (image y)).
Proof. exact image_special. Qed.
Print Assumptions C121_special.
Theorem C121_zero_division : forall x y : carrier Binary64, FloatOps.Prim2SF y = S754_zero false -> image (@ndiv Binary64 x y) = @ndiv Exact (image x) (image y).
Proof. exact image_zero_division. Qed.
Print Assumptions C121_zero_division.
Theorem C121_unary : forall x : carrier Binary64,
  image (@nopp Binary64 x) = @nopp Exact (image x) /\ image (@nabs Binary64 x) = @nabs Exact (image x) /\
  (~ (finite64 x /\ 0 <= value x) -> image (@nsqrt Binary64 x) = @nsqrt Exact (image x)).
Proof. exact image_unary. Qed.
Print Assumptions C121_unary.
Theorem C121_integers : forall x : carrier Binary64, @ntrunc Binary64 x = @ntrunc Exact (image x) /\ @nceil Binary64 x = @nceil Exact (image x).
Proof. exact image_integers. Qed.
Print Assumptions C121_integers.
Theorem C121_finite : forall x : carrier Binary64, @nfinite Binary64 x = @nfinite Exact (image x).
Proof. exact image_finite. Qed.
Print Assumptions C121_finite.
Theorem C121_extremes : forall l : list PrimFloat.float,
  np_max (K := Exact) (List.map image l) = (let* m := np_max (K := Binary64) l in Ok (image m)) /\
  np_min (K := Exact) (List.map image l) = (let* m := np_min (K := Binary64) l in Ok (image m)).
Proof. exact image_extremes. Qed.
Print Assumptions C121_extremes.
Theorem C121_validate : forall x : PrimFloat.float, validate_knot (K := Binary64) x = validate_knot (K := Exact) (image x).
Proof. exact image_validate. Qed.
Print Assumptions C121_validate.
Theorem C121_negative_zero_refuted : exists x y : carrier Binary64, negative_zero y /\ image (@ndiv Binary64 x y) = NInf /\ @ndiv Exact (image x) (image y) = PInf.
Proof.
  exists infinity, (-0)%float; split; [reflexivity|split; [reflexivity|]].
  assert (E : image (-0)%float = Fin 0) by (unfold image, value; cbn; f_equal; ring).
  cbn [ndiv Exact]; rewrite E; change (image infinity) with PInf; cbn; sign_case; reflexivity.
Qed.
Print Assumptions C121_negative_zero_refuted.
Theorem C121_rounding_refuted : exists x y : carrier Binary64, finite64 x /\ finite64 y /\ image (@nadd Binary64 x y) = PInf /\ @nadd Exact (image x) (image y) <> PInf.
Proof. exists 1.7976931348623157e+308%float, 1.7976931348623157e+308%float; split; [exact I|split; [exact I|split; [reflexivity|discriminate]]]. Qed.
Print Assumptions C121_rounding_refuted.

Example C121_example : image (@nsub Binary64 infinity infinity) = NaN /\ image (@nmul Binary64 infinity (-2)%float) = NInf /\ image (@ndiv Binary64 (-3)%float 0%float) = NInf /\
  image (@nsqrt Binary64 (-4)%float) = NaN /\ @neqb Binary64 nan nan = false /\ @nceil Binary64 (-2.5)%float = Some (-2)%Z /\ @ntrunc Binary64 infinity = None.
Proof. repeat split. Qed.
Example C121_api_example : np_max (K := Binary64) (1 :: infinity :: nil)%float = Ok infinity /\ np_min (K := Exact) (List.map image (infinity :: neg_infinity :: nil)) = Ok NInf /\
  validate_knot (K := Binary64) nan = false /\ validate_knot (K := Binary64) 0.5%float = true.
Proof. split; [reflexivity|split; [rewrite (proj2 (C121_extremes _)); reflexivity|split; reflexivity]]. Qed.
Example C121_hypotheses : (~ finite64 infinity \/ ~ finite64 (-2)%float) /\ ~ negative_zero (-2)%float /\ FloatOps.Prim2SF 0%float = S754_zero false /\ ~ (finite64 (-4)%float /\ 0 <= value (-4)%float).
Proof. split; [left; exact (fun H => H)|split; [discriminate|split; [reflexivity|intros [_ H]; pose proof (pos_value true 4503599627370496 (-50)) as P; cbv zeta in P; exact (Rlt_not_le _ _ P H)]]]. Qed.
