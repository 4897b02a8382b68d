(** C117: points and derivatives on IEEE 754 doubles whatever the order of the
    additions in dot products, with or without fused multiply-adds. *)
From Coq Require Import Reals Lra Lia ZArith List Floats.
From Verif Require Import Py PyLemmas Num ModelKnots ModelBasis ModelCurve ModelSurface ModelParam ModelDot Spec SpecParam SpecB64 SpecDot MathKnots
  ProofDot ProofDot2 ProofDot3 ProofDot4 ProofDot5 Examples PropB64 PropB64Adapt.
Import ListNotations.
Open Scope R_scope.

(** Dot products from left to right, as in the other models, are of this kind; so
    are those from right to left and those by fused multiply-adds. *)
Theorem C117_orders : dots64 (fun _ => vdot (K := Binary64)) /\ dots64 dot_reversed /\ dots64 dot_fused.
Proof. exact (conj dots_left (conj dots_reversed dots_fused)). Qed.
Print Assumptions C117_orders.
(** From left to right this is the model of C81, C82, C99 and C100. *)
Theorem C117_left_to_right : forall (K : Num) (c : curve_obj K) (s : surf K) u v o ou ov,
  single_point_dot (fun _ => vdot) c u = single_point c u /\
  derivatives_dot (fun _ => vdot) c u o = derivatives3 c u o /\
  surf_point_dot (fun _ => vdot) s u v = surf_point s u v /\
  surf_derivatives_dot (fun _ => vdot) s u v ou ov = surf_derivatives s u v ou ov false.
Proof.
  exact (fun K c s u v o ou ov => conj (single_point_dot_model K c u) (conj (derivatives_dot_model K c u o)
    (conj (surf_point_dot_model K s u v) (surf_derivatives_dot_model K s u v ou ov)))).
Qed.
Print Assumptions C117_left_to_right.

Theorem C117_curve : forall dot, dots64 dot -> forall p (U : list PrimFloat.float) P d (x : Binary64) M,
  within 0 1 U -> clamped (Z.of_nat p) (len P) (values U) -> (1 <= p)%nat -> INR p <= 2 ^ 40 ->
  kn (values U) (Z.of_nat p) = 0 -> kn (values U) (len P) = 1 ->
  (forall i, (Z.of_nat p <= i < len P)%Z -> / 2 ^ 1000 <= kn (values U) (i + 1) - kn (values U) i) ->
  Forall (fun row => length row = 3%nat /\ within (- M) M row) P -> 0 <= M <= 2 ^ 900 ->
  finite64 x -> 0 <= value x <= 1 ->
  (1 - value x <= 102 / 100000000 -> kn (values U) (len P - 1) <= value x) ->
  exists y, single_point_dot (K := Binary64) dot (mkCurve (K := Binary64) (Some (Z.of_nat p)) (Some P) (Some U) d) x = Ok y /\
    near64 (10 * INR (S p) * (ulp64 * M + tiny64)) y (curve_xyz (values U) p (map values P) (value x)).
Proof. exact single_point_dot_b64. Qed.
Print Assumptions C117_curve.
Theorem C117_surface : forall dot, dots64 dot -> forall p q nu nv (U V : list PrimFloat.float) P (x y : Binary64) M,
  within 0 1 U -> clamped (Z.of_nat p) (Z.of_nat nu) (values U) -> (1 <= p)%nat -> INR p <= 2 ^ 40 ->
  kn (values U) (Z.of_nat p) = 0 -> kn (values U) (Z.of_nat nu) = 1 ->
  (forall i, (Z.of_nat p <= i < Z.of_nat nu)%Z -> / 2 ^ 1000 <= kn (values U) (i + 1) - kn (values U) i) ->
  within 0 1 V -> clamped (Z.of_nat q) (Z.of_nat nv) (values V) -> (1 <= q)%nat -> INR q <= 2 ^ 40 ->
  kn (values V) (Z.of_nat q) = 0 -> kn (values V) (Z.of_nat nv) = 1 ->
  (forall i, (Z.of_nat q <= i < Z.of_nat nv)%Z -> / 2 ^ 1000 <= kn (values V) (i + 1) - kn (values V) i) ->
  length P = (nu * nv)%nat -> Forall (fun row => length row = 3%nat /\ within (- M) M row) P -> 0 <= M <= 2 ^ 890 ->
  finite64 x -> 0 <= value x <= 1 -> (1 - value x <= 102 / 100000000 -> kn (values U) (Z.of_nat nu - 1) <= value x) ->
  finite64 y -> 0 <= value y <= 1 -> (1 - value y <= 102 / 100000000 -> kn (values V) (Z.of_nat nv - 1) <= value y) ->
  exists z, surf_point_dot (K := Binary64) dot (mkSurf (K := Binary64) (Z.of_nat p) (Z.of_nat q) (Z.of_nat nu) (Z.of_nat nv) P U V) x y = Ok z /\
    near64 (11 * INR (p + q + 1) * (ulp64 * M + tiny64)) z
      (surface_xyz (values U) (values V) p q nu nv (map values P) (value x) (value y)).
Proof. exact surf_point_dot_b64. Qed.
Print Assumptions C117_surface.
Theorem C117_curve_derivatives : forall dot, dots64 dot -> forall p (U : list PrimFloat.float) P d (x : Binary64) M s o,
  within 0 1 U -> nondecreasing (values U) -> len U = (len P + Z.of_nat p + 1)%Z -> INR p <= 2 ^ 40 ->
  Forall (fun row => length row = 3%nat /\ within (- M) M row) P -> 0 <= M ->
  finite64 x -> 0 <= value x <= 1 ->
  find_span (len P) (Z.of_nat p) x U = Ok s -> (Z.of_nat p <= s < len P)%Z ->
  kn (values U) s <= value x <= kn (values U) (s + 1) ->
  let g := kn (values U) (s + 1) - kn (values U) s in / 2 ^ 1000 <= g -> (2 <= o)%nat ->
  exists m : list (list PrimFloat.float),
    derivatives_dot (K := Binary64) dot (mkCurve (K := Binary64) (Some (Z.of_nat p)) (Some P) (Some U) d) x (Z.of_nat o) = Ok m /\
    length m = S (Nat.min o p) /\ Forall (fun row => length row = 3%nat) m /\
    forall k c, (k <= o)%nat -> (k <= p)%nat -> (c < 3)%nat ->
      let W := INR (fact p) / INR (fact (p - k)) * (2 / g) ^ k in
      (2 / g) ^ k <= 2 ^ 900 -> INR (fact p) / INR (fact (p - k)) < 2 ^ 53 -> W * M <= 2 ^ 980 ->
      exists G, nth_derivative k (curve_piece (values U) s p (coords c (map values P))) G /\
        finite64 (nth c (nth k m []) 0%float) /\
        Rabs (value (nth c (nth k m []) 0%float) - G (value x)) <= 14 * INR (S p) * W * (ulp64 * M + tiny64).
Proof. exact derivatives_dot_b64. Qed.
Print Assumptions C117_curve_derivatives.
Theorem C117_surface_derivatives : forall dot, dots64 dot -> forall p q nu nv (U V : list PrimFloat.float) P (x y : Binary64) s t M,
  within 0 1 U -> within 0 1 V -> knots_for (Z.of_nat p) (Z.of_nat nu) (values U) -> knots_for (Z.of_nat q) (Z.of_nat nv) (values V) ->
  length P = (nu * nv)%nat -> Forall (fun row => length row = 3%nat /\ within (- M) M row) P -> 0 <= M ->
  finite64 x -> finite64 y -> 0 <= value x <= 1 -> 0 <= value y <= 1 ->
  find_span (Z.of_nat nu) (Z.of_nat p) x U = Ok s -> find_span (Z.of_nat nv) (Z.of_nat q) y V = Ok t ->
  (Z.of_nat p <= s < Z.of_nat nu)%Z -> (Z.of_nat q <= t < Z.of_nat nv)%Z ->
  kn (values U) s <= value x <= kn (values U) (s + 1) -> kn (values V) t <= value y <= kn (values V) (t + 1) ->
  let g := kn (values U) (s + 1) - kn (values U) s in let h := kn (values V) (t + 1) - kn (values V) t in
  / 2 ^ 1000 <= g -> / 2 ^ 1000 <= h -> INR p <= 2 ^ 40 -> INR q <= 2 ^ 40 ->
  forall ou ov, exists m : list (list PrimFloat.float),
  surf_derivatives_dot (K := Binary64) dot (mkSurf (K := Binary64) (Z.of_nat p) (Z.of_nat q) (Z.of_nat nu) (Z.of_nat nv) P U V) x y (Z.of_nat ou) (Z.of_nat ov) = Ok m /\
  length m = ((Nat.min ou p + 1) * (Nat.min ov q + 1))%nat /\ Forall (fun row => length row = 3%nat) m /\
  (forall a b c, (a <= ou)%nat -> (a <= p)%nat -> (b <= ov)%nat -> (b <= q)%nat -> (c < 3)%nat ->
    let Wa := INR (fact p) / INR (fact (p - a)) * (2 / g) ^ a in
    let Wb := INR (fact q) / INR (fact (q - b)) * (2 / h) ^ b in
    (2 / g) ^ a <= 2 ^ 900 -> INR (fact p) / INR (fact (p - a)) < 2 ^ 53 ->
    (2 / h) ^ b <= 2 ^ 900 -> INR (fact q) / INR (fact (q - b)) < 2 ^ 53 -> Wa * Wb * M <= 2 ^ 970 ->
    let e := nth c (nth (a * (Nat.min ov q + 1) + b) m []) 0%float in
    exists G, mixed_partial a b (surface_piece (values U) (values V) s t p q nu nv (coords c (map values P))) G /\
      finite64 e /\ Rabs (value e - G (value x) (value y)) <= 15 * INR (p + q + 1) * (Wa * Wb) * (ulp64 * M + tiny64)).
Proof. exact surf_derivatives_dot_b64. Qed.
Print Assumptions C117_surface_derivatives.
(** The ends of curves and the corners of surfaces are exact in every order when
    they are from left to right (C95, C96). *)
Theorem C117_ends : forall dot, dots64 dot -> forall p (U : list PrimFloat.float) (P : list (list PrimFloat.float)) d,
  within 0 1 U -> clamped (Z.of_nat p) (len P) (values U) -> (1 <= p)%nat ->
  kn (values U) (Z.of_nat p) = 0 -> kn (values U) (len P) = 1 ->
  Forall (fun row => length row = 3%nat /\ within (- 2 ^ 1023) (2 ^ 1023) row) P ->
  let c := mkCurve (K := Binary64) (Some (Z.of_nat p)) (Some P) (Some U) d in
  (undoes64 (nth (S p) U 0%float) -> exists y : list PrimFloat.float, single_point_dot (K := Binary64) dot c 0%float = Ok y /\
    Forall finite64 y /\ values y = values (nth 0 P [])) /\
  (undoes64 (1 - nth (length P - 1) U 0)%float -> exists y : list PrimFloat.float, single_point_dot (K := Binary64) dot c 1%float = Ok y /\
    Forall finite64 y /\ values y = values (last P [])).
Proof. exact curve_ends_dot. Qed.
Print Assumptions C117_ends.
Theorem C117_corners : forall dot, dots64 dot -> forall p q nu nv (U V : list PrimFloat.float) (P : list (list PrimFloat.float)),
  within 0 1 U -> within 0 1 V -> clamped (Z.of_nat p) (Z.of_nat nu) (values U) -> clamped (Z.of_nat q) (Z.of_nat nv) (values V) ->
  (1 <= p)%nat -> (1 <= q)%nat -> kn (values U) (Z.of_nat p) = 0 -> kn (values U) (Z.of_nat nu) = 1 ->
  kn (values V) (Z.of_nat q) = 0 -> kn (values V) (Z.of_nat nv) = 1 -> length P = (nu * nv)%nat ->
  Forall (fun row => length row = 3%nat /\ within (- 2 ^ 1023) (2 ^ 1023) row) P ->
  let S64 := mkSurf (K := Binary64) (Z.of_nat p) (Z.of_nat q) (Z.of_nat nu) (Z.of_nat nv) P U V in
  let at_corner x y i := exists z : list PrimFloat.float, surf_point_dot (K := Binary64) dot S64 x y = Ok z /\
    Forall finite64 z /\ values z = values (nth i P []) in
  let u0 := nth (S p) U 0%float in let u1 := (1 - nth (nu - 1) U 0)%float in
  let v0 := nth (S q) V 0%float in let v1 := (1 - nth (nv - 1) V 0)%float in
  (undoes64 u0 -> undoes64 v0 -> at_corner 0%float 0%float 0%nat) /\
  (undoes64 u0 -> undoes64 v1 -> at_corner 0%float 1%float (nv - 1)%nat) /\
  (undoes64 u1 -> undoes64 v0 -> at_corner 1%float 0%float ((nu - 1) * nv)%nat) /\
  (undoes64 u1 -> undoes64 v1 -> at_corner 1%float 1%float (nu * nv - 1)%nat).
Proof. exact surface_corners_dot. Qed.
Print Assumptions C117_corners.
Example C117_ends_example :
  undoes64 (nth 3 fU 0%float) /\ undoes64 (1 - nth (length fP - 1) fU 0)%float /\ undoes64 (nth 2 fV 0%float) /\
  single_point_dot (K := Binary64) dot_fused (mkCurve (K := Binary64) (Some 2%Z) (Some fP) (Some fU) 3) (1%float : Binary64) = Ok [6; 0; 0]%float /\
  surf_point_dot (K := Binary64) dot_fused (mkSurf (K := Binary64) 2 1 5 3 fQ fU fV) (1%float : Binary64) (0%float : Binary64) = Ok [6; 0; 0]%float.
Proof.
  split; [apply undoes_eval; [cbn [nth fU]; val_eval; lra|vm_compute; reflexivity]|].
  split; [apply undoes_eval; [cbn [nth fU length fP Nat.sub]; val_eval; lra|vm_compute; reflexivity]|].
  split; [apply undoes_eval; [cbn [nth fV]; val_eval; lra|vm_compute; reflexivity]|].
  split; vm_compute; reflexivity.
Qed.
(** C81_example, C82_example, C99_example and C100_example meet the other
    hypotheses; here sums from right to left. *)
Example C117_example :
  derivatives_dot (K := Binary64) dot_reversed (mkCurve (K := Binary64) (Some 2%Z) (Some fP) (Some fU) 3) (0.5%float : Binary64) 2
  = Ok [[0x1.8b60b60b60b60p+1; 0x1.82d82d82d82d8p+0; -0x1.3333333333332p-1]; [0x1.f49f49f49f4a0p+1; 0x1.3e93e93e93e93p+1; 0x1.9999999999999p+0]; [-0x1.3e93e93e93e97p+3; 0x1.6c16c16c16c16p+4; 0x1.3333333333334p+4]]%float /\
  surf_point_dot (K := Binary64) dot_reversed (mkSurf (K := Binary64) 2 1 5 3 fQ fU fV) (0.5%float : Binary64) (0.25%float : Binary64)
  = Ok [0x1.b60b60b60b60ap+1; 0x1.d82d82d82d82cp+0; -0x1.1111111111110p-2]%float.
Proof. split; vm_compute; reflexivity. Qed.
(** The point does depend on the order and on the instructions. *)
Theorem C117_order_refuted : exists (c : curve_obj Binary64) (u : PrimFloat.float) (a b : list PrimFloat.float),
  single_point_dot (K := Binary64) (fun _ => vdot (K := Binary64)) c u = Ok a /\
  single_point_dot (K := Binary64) dot_reversed c u = Ok b /\ single_point_dot (K := Binary64) dot_fused c u = Ok b /\
  value (nth 0 a 0%float) < value (nth 0 b 0%float).
Proof.
  exists (mkCurve (K := Binary64) (Some 2%Z) (Some fP) (Some fU) 3), 0x1.6666666666666p-1%float,
    [0x1.e147ae147ae13p+1; 0x1.1eb851eb851ebp+1; -0x1.0000000000000p-53]%float, [0x1.e147ae147ae14p+1; 0x1.1eb851eb851ebp+1; -0x1.0000000000000p-53]%float.
  split; [vm_compute; reflexivity|]; split; [vm_compute; reflexivity|]; split; [vm_compute; reflexivity|].
  cbn [nth]; val_eval; lra.
Qed.
Print Assumptions C117_order_refuted.
