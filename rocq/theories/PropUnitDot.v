(** C126: normalised derivative vectors of surfaces on IEEE 754 doubles, whatever the
    order of additions in dot products and norms. *)
From Coq Require Import Reals Lra Lia ZArith List Floats.
From Flocq Require Import Core.Raux.
From Verif Require Import Py PyLemmas Num ModelKnots ModelBasis ModelCurve ModelSurface ModelDot ModelDotParam ModelDotUnit Spec SpecB64 SpecDot MathKnots
  ProofB64 ProofB64Basis ProofB64Curve ProofDot4 ProofUnitDot ProofUnitDot3 Examples PropB64 PropUnitRow.
Import ListNotations.
Open Scope R_scope.

(** From left to right, and without [normalize], this is the other models. *)
Theorem C126_models : forall (K : Num) (s : surf K) u v ou ov,
  (forall nrm, surf_derivatives_unit (fun _ => vdot) s u v ou ov nrm = surf_derivatives s u v ou ov nrm) /\
  (forall dot, surf_derivatives_unit dot s u v ou ov false = surf_derivatives_dot dot s u v ou ov).
Proof. exact (fun K s u v ou ov => conj (surf_unit_left K s u v ou ov) (fun dot => surf_unit_plain dot s u v ou ov)). Qed.
Print Assumptions C126_models.
(** On any numbers and for any dot products: [normalize] changes no row but rows
    1, 2, ... that are not close to 0, and no error. *)
Theorem C126_rows : forall (K : Num) (dot : list Z -> list K -> list K -> K) (s : surf K) (u v : K) ou ov,
  (0 <= ou)%Z -> (0 <= ov)%Z -> (0 <= s_pu s)%Z -> (0 <= s_pv s)%Z ->
  (forall m, surf_derivatives_dot dot s u v ou ov = Ok m -> exists m', surf_derivatives_unit dot s u v ou ov true = Ok m' /\
     length m' = length m /\ Forall (fun r => length r = 3%nat) m /\ nth 0 m' [] = nth 0 m [] /\
     forall k, (0 < k < length m)%nat -> let r := nth k m [] in
       nth k m' [] = if isclose (nsqrt (dot [Z.of_nat k; 3%Z] r r)) (0%num : K) then r else map (fun x => (x / nsqrt (dot [Z.of_nat k; 4%Z] r r))%num) r) /\
  (forall m', surf_derivatives_unit dot s u v ou ov true = Ok m' -> exists m, surf_derivatives_dot dot s u v ou ov = Ok m) /\
  (forall e, surf_derivatives_dot dot s u v ou ov = Err e <-> surf_derivatives_unit dot s u v ou ov true = Err e).
Proof. exact @surf_unit_dot. Qed.
Print Assumptions C126_rows.
(** On doubles, as C125: rows longer than 1.01e-8 become unit vectors up to rounding,
    with no component outside [-1,1]; rows shorter than 0.99e-8 stay as they are. *)
Theorem C126_unit : forall dot, dots64 dot -> forall (s : surf Binary64) (u v : Binary64) ou ov, (0 <= ou)%Z -> (0 <= ov)%Z -> (0 <= s_pu s)%Z -> (0 <= s_pv s)%Z ->
  forall m : list (list PrimFloat.float), surf_derivatives_dot (K := Binary64) dot s u v ou ov = Ok (m : list (list Binary64)) ->
  exists m' : list (list PrimFloat.float), surf_derivatives_unit (K := Binary64) dot s u v ou ov true = Ok (m' : list (list Binary64)) /\
    length m' = length m /\ nth 0 m' [] = nth 0 m [] /\
    forall k, (0 < k < length m)%nat -> let r := nth k m [] in let r' := nth k m' [] in let N := normR (values r) in
      within (- 2 ^ 400) (2 ^ 400) r ->
      (N <= 99/10000000000 -> r' = r) /\
      (101/10000000000 <= N -> length r' = 3%nat /\ Rabs (normR (values r') - 1) <= 14 * ulp64 /\ within (- 1) 1 r' /\
         forall c, (c < 3)%nat -> let x := value (nth c r 0%float) in
           Rabs (value (nth c r' 0%float) - x / N) <= 13 * ulp64 * Rabs (x / N) + tiny64).
Proof. exact surf_unit64_dot. Qed.
Print Assumptions C126_unit.
(** Rows along an axis become exactly 1 or -1 there and 0 elsewhere. *)
Theorem C126_axis : forall dot, dots64 dot -> forall (s : surf Binary64) (u v : Binary64) ou ov, (0 <= ou)%Z -> (0 <= ov)%Z -> (0 <= s_pu s)%Z -> (0 <= s_pv s)%Z ->
  forall m m' : list (list PrimFloat.float), surf_derivatives_dot (K := Binary64) dot s u v ou ov = Ok (m : list (list Binary64)) ->
  surf_derivatives_unit (K := Binary64) dot s u v ou ov true = Ok (m' : list (list Binary64)) ->
  forall k c, (0 < k < length m)%nat -> (c < 3)%nat -> let r := nth k m [] in let r' := nth k m' [] in
    within (- 2 ^ 400) (2 ^ 400) r -> 101/10000000000 <= Rabs (value (nth c r 0%float)) ->
    (forall d, (d < 3)%nat -> d <> c -> value (nth d r 0%float) = 0) ->
    (0 < value (nth c r 0%float) -> value (nth c r' 0%float) = 1) /\ (value (nth c r 0%float) < 0 -> value (nth c r' 0%float) = -1) /\
    forall d, (d < 3)%nat -> d <> c -> value (nth d r' 0%float) = 0.
Proof. exact surf_axis64_dot. Qed.
Print Assumptions C126_axis.
(** Against the true partial derivatives [G] of the surface. *)
Theorem C126_direction : forall dot, dots64 dot -> forall p q nu nv (U V : list PrimFloat.float) P (x y : Binary64) s t M,
  within 0 1 U -> within 0 1 V -> knots_for (Z.of_nat p) (Z.of_nat nu) (values U) -> knots_for (Z.of_nat q) (Z.of_nat nv) (values V) ->
  length P = (nu * nv)%nat -> Forall (fun row => length row = 3%nat /\ within (- M) M row) P -> 0 <= M ->
  finite64 x -> finite64 y -> 0 <= value x <= 1 -> 0 <= value y <= 1 ->
  find_span (Z.of_nat nu) (Z.of_nat p) x U = Ok s -> find_span (Z.of_nat nv) (Z.of_nat q) y V = Ok t ->
  (Z.of_nat p <= s < Z.of_nat nu)%Z -> (Z.of_nat q <= t < Z.of_nat nv)%Z ->
  kn (values U) s <= value x <= kn (values U) (s + 1) -> kn (values V) t <= value y <= kn (values V) (t + 1) ->
  let g := kn (values U) (s + 1) - kn (values U) s in let h := kn (values V) (t + 1) - kn (values V) t in
  / 2 ^ 1000 <= g -> / 2 ^ 1000 <= h -> INR p <= 2 ^ 40 -> INR q <= 2 ^ 40 ->
  forall ou ov, exists m0 m : list (list PrimFloat.float),
  surf_derivatives_dot (K := Binary64) dot (mkSurf (K := Binary64) (Z.of_nat p) (Z.of_nat q) (Z.of_nat nu) (Z.of_nat nv) P U V) x y (Z.of_nat ou) (Z.of_nat ov) = Ok m0 /\
  surf_derivatives_unit (K := Binary64) dot (mkSurf (K := Binary64) (Z.of_nat p) (Z.of_nat q) (Z.of_nat nu) (Z.of_nat nv) P U V) x y (Z.of_nat ou) (Z.of_nat ov) true = Ok m /\
  forall a b, (a <= ou)%nat -> (a <= p)%nat -> (b <= ov)%nat -> (b <= q)%nat -> (0 < a + b)%nat ->
    let Wa := INR (fact p) / INR (fact (p - a)) * (2 / g) ^ a in
    let Wb := INR (fact q) / INR (fact (q - b)) * (2 / h) ^ b in
    (2 / g) ^ a <= 2 ^ 900 -> INR (fact p) / INR (fact (p - a)) < 2 ^ 53 ->
    (2 / h) ^ b <= 2 ^ 900 -> INR (fact q) / INR (fact (q - b)) < 2 ^ 53 -> Wa * Wb * M <= 2 ^ 970 ->
    let k := (a * (Nat.min ov q + 1) + b)%nat in
    let E := 15 * INR (p + q + 1) * (Wa * Wb) * (ulp64 * M + tiny64) in
    exists G : list R, length G = 3%nat /\
      (forall c, (c < 3)%nat -> exists D, mixed_partial a b (surface_piece (values U) (values V) s t p q nu nv (coords c (map values P))) D /\ nth c G 0 = D (value x) (value y) /\
         Rabs (value (nth c (nth k m0 []) 0%float) - nth c G 0) <= E) /\
      (203/10000000000 <= normR G <= 2 ^ 399 -> 4 * E <= normR G -> forall c, (c < 3)%nat ->
        Rabs (value (nth c (nth k m []) 0%float) - nth c G 0 / normR G) <= 14 * ulp64 + 3 * E / normR G).
Proof. exact surf_direction64_dot. Qed.
Print Assumptions C126_direction.

(** The patch of C125_example with sums from right to left and with fused
    multiply-adds; the hypotheses on its rows hold there. *)
Example C126_example : forall dot, dot = dot_reversed \/ dot = dot_fused ->
  dots64 dot /\
  surf_derivatives_dot (K := Binary64) dot (patch64 twisted) (0.5%float : Binary64) (0.25%float : Binary64) 1 1
  = Ok [[1; 0.75; 0.125]; [0; 3; 0.5]; [2; 0; 0.25]; [0; 0; 1]]%float /\
  surf_derivatives_unit (K := Binary64) dot (patch64 twisted) (0.5%float : Binary64) (0.25%float : Binary64) 1 1 true
  = Ok [[1; 0.75; 0.125]; [0; 0x1.f9089fd7aa128p-1; 0x1.50b06a8fc6b70p-3]; [0x1.fc0bd88a0f1dap-1; 0; 0x1.fc0bd88a0f1dap-4]; [0; 0; 1]]%float.
Proof.
  intros dot [->| ->]; (split; [apply dots_reversed || apply dots_fused|split; vm_compute; reflexivity]).
Qed.
Print Assumptions C126_example.
(** The normalised row does depend on the order. *)
Theorem C126_order_refuted : exists (P : list (list PrimFloat.float)) (m a b : list (list PrimFloat.float)),
  surf_derivatives_dot (K := Binary64) (fun _ => vdot (K := Binary64)) (patch64 P) (0%float : Binary64) (0%float : Binary64) 1 1 = Ok m /\
  surf_derivatives_dot (K := Binary64) dot_reversed (patch64 P) (0%float : Binary64) (0%float : Binary64) 1 1 = Ok m /\
  surf_derivatives_unit (K := Binary64) (fun _ => vdot (K := Binary64)) (patch64 P) (0%float : Binary64) (0%float : Binary64) 1 1 true = Ok a /\
  surf_derivatives_unit (K := Binary64) dot_reversed (patch64 P) (0%float : Binary64) (0%float : Binary64) 1 1 true = Ok b /\
  value (nth 0 (nth 1 a []) 0%float) < value (nth 0 (nth 1 b []) 0%float).
Proof.
  exists [[0; 0; 0]; [0x1.999999999999ap-4; 0x1.3333333333333p-1; 0x1.ccccccccccccdp-1]; [2; 0x1.3333333333333p-2; 0x1.199999999999ap+0]; [0; 3; 1]]%float.
  eexists; eexists; eexists; split; [vm_compute; reflexivity|]; split; [vm_compute; reflexivity|]; split; [vm_compute; reflexivity|]; split; [vm_compute; reflexivity|].
  cbn [nth]; val_eval; lra.
Qed.
Print Assumptions C126_order_refuted.
