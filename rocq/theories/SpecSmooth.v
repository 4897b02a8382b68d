(** Notions used in the statements of PropSmooth.v. *)
From Coq Require Import Sorted.
From Verif Require Import Spec.
Open Scope R_scope.

(** Row [r] of a table of p+1 rows, 0 for the functions that have no row. *)
Definition entry (p : nat) (m : list (list R)) (r : Z) (k : nat) : R :=
  if (0 <=? r)%Z then if (r <=? Z.of_nat p)%Z then nth k (nth (Z.to_nat r) m []) 0 else 0 else 0.
(** The last span is wider than the tolerance of the span search. *)
Definition wide_end (n : Z) (U : list R) : Prop := kn U (n - 1) <= 1 - 1/500000.
(** [L] bounds p |c_i - c_{i-1}| / (u_{i+p} - u_i). *)
Definition slopes (p : nat) (U : list R) (c : list R) (L : R) : Prop :=
  forall i, (0 < i < len c)%Z -> INR p * Rabs (nth (Z.to_nat i) c 0 - nth (Z.to_nat (i - 1)) c 0) <= L * (kn U (i + Z.of_nat p) - kn U i).
(** Every span holds [k] different parameters with property [A]. *)
Definition plenty (k : nat) (p n : Z) (U : list R) (A : R -> Prop) : Prop :=
  forall s, (p <= s < n)%Z -> exists xs, length xs = k /\ StronglySorted Rlt xs /\ Forall (fun u => kn U s <= u <= kn U (s + 1) /\ A u) xs.
(** Average of the [p] knots after the [i]-th. *)
Definition average (p : nat) (U : list R) (i : nat) : R := zsum (Z.of_nat i + 1) p (kn U) / INR p.
(** Partial derivative, [a] times in u and [b] times in v, of A + u D + v E + u v F. *)
Definition bilinear_row (a b : nat) (A D E F u v : R) : R :=
  match a, b with
  | O, O => A + u * D + v * E + u * v * F
  | 1%nat, O => D + v * F
  | O, 1%nat => E + u * F
  | 1%nat, 1%nat => F
  | _, _ => 0
  end.
(** [M] is an orthogonal matrix: rotations and reflections of space. *)
Definition orthogonal (M : nat -> nat -> R) : Prop :=
  (forall i j, (i < 3)%nat -> (j < 3)%nat -> M 0%nat i * M 0%nat j + M 1%nat i * M 1%nat j + M 2%nat i * M 2%nat j = if (i =? j)%nat then 1 else 0) /\
  (forall i j, (i < 3)%nat -> (j < 3)%nat -> M i 0%nat * M j 0%nat + M i 1%nat * M j 1%nat + M i 2%nat * M j 2%nat = if (i =? j)%nat then 1 else 0).
(** A data point with parameters, moved: the coordinates change, the parameters stay. *)
Definition moved (M : nat -> nat -> R) (b : nat -> R) (r : list R) : list R := affine M b r ++ skipn 3 r.
