(** Notions used in the statements of PropShape.v. *)
From Verif Require Import Spec.
Open Scope R_scope.

(** [l] and [L] bound p (c_i - c_{i-1}) / (u_{i+p} - u_i). *)
Definition rates (p : nat) (U : list R) (c : list R) (l L : R) : Prop :=
  forall i, (0 < i < len c)%Z ->
    l * (kn U (i + Z.of_nat p) - kn U i) <= INR p * (nth (Z.to_nat i) c 0 - nth (Z.to_nat (i - 1)) c 0) <= L * (kn U (i + Z.of_nat p) - kn U i).
(** These quotients do not decrease. *)
Definition convex_rates (p : nat) (U : list R) (c : list R) : Prop :=
  forall i, (0 < i)%Z -> (i + 1 < len c)%Z ->
    (nth (Z.to_nat i) c 0 - nth (Z.to_nat (i - 1)) c 0) * (kn U (i + 1 + Z.of_nat p) - kn U (i + 1)) <=
    (nth (Z.to_nat (i + 1)) c 0 - nth (Z.to_nat i) c 0) * (kn U (i + Z.of_nat p) - kn U i).
(** The knots of the curve run through backwards. *)
Definition mirror (U : list R) : list R := map (fun x => 1 - x) (rev U).
(** A control net with the roles of u and v exchanged, or one direction reversed. *)
Definition net_swap {A} (nu nv : nat) (P : list (list A)) : list (list A) :=
  flat_map (net_col nu nv P) (seq 0 nv).
Definition net_rev_u {A} (nu nv : nat) (P : list (list A)) : list (list A) :=
  flat_map (fun i => net_row nv P (nu - 1 - i)) (seq 0 nu).
Definition net_rev_v {A} (nu nv : nat) (P : list (list A)) : list (list A) :=
  flat_map (fun i => rev (net_row nv P i)) (seq 0 nu).
