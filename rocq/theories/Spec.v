(** Specifications.  Mathematical notions only: nothing here refers to the
    model (Model*.v). *)
From Coq Require Export Reals Lra.
From Coq Require Export List ZArith Lia.
Export ListNotations.
Open Scope R_scope.

(** ** Sums: [zsum a n f] = f a + f (a+1) + ... + f (a+n-1). *)
Fixpoint zsum (a : Z) (n : nat) (f : Z -> R) : R :=
  match n with
  | O => 0
  | S m => zsum a m f + f (a + Z.of_nat m)%Z
  end.

(** ** Knot vectors *)

(** Entry [i] of a knot vector.  Out of range, the nearest entry (only entries
    in range matter in the statements below). *)
Definition kn (U : list R) (i : Z) : R := nth (Z.to_nat i) U (last U 0).
Definition len {A} (l : list A) : Z := Z.of_nat (length l).

Definition nondecreasing (U : list R) : Prop :=
  forall i j, (0 <= i <= j)%Z -> (j < len U)%Z -> kn U i <= kn U j.

(** Knot vector of a degree-[p] spline with [n] control points. *)
Definition knots_for (p n : Z) (U : list R) : Prop :=
  (0 <= p)%Z /\ (p + 1 <= n)%Z /\ len U = (n + p + 1)%Z /\ nondecreasing U.

(** Clamped: the first and the last [p+1] knots coincide, the domain is not a point. *)
Definition clamped (p n : Z) (U : list R) : Prop :=
  knots_for p n U /\ kn U 0 = kn U p /\ kn U n = kn U (n + p) /\ kn U p < kn U n.

(** [u] lies in span [s], which is not empty: half-open, or closed at the very end. *)
Definition in_span (U : list R) (s : Z) (u : R) : Prop :=
  kn U s <= u < kn U (s + 1) \/ (kn U s < kn U (s + 1) /\ u = kn U (s + 1) /\ u = last U 0).

(** ** B-splines by the Cox-de Boor recursion, with the convention x/0 = 0. *)
Definition sdiv (a b : R) : R := if Req_EM_T b 0 then 0 else a / b.

(** The recursion over given degree-0 values [B] and knots [U]. *)
Fixpoint cox (B : Z -> R) (U : Z -> R) (p : nat) (i : Z) (u : R) : R :=
  match p with
  | O => B i
  | S q =>
      sdiv (u - U i) (U (i + Z.of_nat q + 1)%Z - U i) * cox B U q i u
      + sdiv (U (i + Z.of_nat q + 2)%Z - u) (U (i + Z.of_nat q + 2)%Z - U (i + 1)%Z)
        * cox B U q (i + 1)%Z u
  end.

(** Degree 0: indicator of [U_i, U_{i+1}); the last non-empty span is closed. *)
Definition base (U : list R) (u : R) (i : Z) : R :=
  if Rle_dec (kn U i) u then
    if Rlt_dec u (kn U (i + 1)) then 1
    else if Rlt_dec (kn U i) (kn U (i + 1)) then
           if Req_EM_T u (kn U (i + 1)) then
             if Req_EM_T u (last U 0) then 1 else 0
           else 0
         else 0
  else 0.

(** [N_{i,p}(u)]. *)
Definition bspline (U : list R) (p : nat) (i : Z) (u : R) : R := cox (base U u) (kn U) p i u.

(** The polynomial which [N_{i,p}] is on span [s]. *)
Definition piece (U : list R) (s : Z) (p : nat) (i : Z) (u : R) : R :=
  cox (fun i => if (i =? s)%Z then 1 else 0) (kn U) p i u.

(** ** Curves: sum_i N_{i,p}(u) c_i over the [n] control values [c]. *)
Definition curve_sum (U : list R) (p : nat) (c : list R) (u : R) : R :=
  zsum 0 (length c) (fun i => bspline U p i u * nth (Z.to_nat i) c 0).

(** Column [k] of an array of points. *)
Definition coords (k : nat) (P : list (list R)) : list R := map (fun r => nth k r 0) P.

(** Surface over a net given row by row: value (i,j) at position i*nv+j. *)
Definition surface_sum (U V : list R) (p q : nat) (nu nv : nat) (c : list R) (u v : R) : R :=
  zsum 0 nu (fun i => zsum 0 nv (fun j =>
    bspline U p i u * bspline V q j v * nth (Z.to_nat (i * Z.of_nat nv + j)) c 0)).

(** ** Derivatives: [g] is the [k]-th derivative of [f], everywhere. *)
Fixpoint nth_derivative (k : nat) (f g : R -> R) : Prop :=
  match k with
  | O => forall x, g x = f x
  | S m => exists h, nth_derivative m f h /\ forall x, derivable_pt_lim h x (g x)
  end.

(** ** Closeness in the sense of numpy: |a-b| <= atol + rtol*|b|. *)
Definition close (rtol atol a b : R) : Prop := Rabs (a - b) <= atol + rtol * Rabs b.

(** Clamped up to the tolerances of numpy's [allclose] after rescaling to [0,1]. *)
Definition near_clamped (p n : Z) (U : list R) : Prop :=
  len U = (n + p + 1)%Z /\ nondecreasing U /\ kn U 0 < last U 0 /\
  (forall i, (0 <= i <= p)%Z ->
     close (1/100000) (1/100000000) 0 ((kn U i - kn U 0) / (last U 0 - kn U 0))) /\
  (forall i, (n <= i <= n + p)%Z ->
     close (1/100000) (1/100000000) 1 ((kn U i - kn U 0) / (last U 0 - kn U 0))).

(** Clamped with end knots of multiplicity exactly [p+1]. *)
Definition tight (p n : Z) (U : list R) : Prop :=
  clamped p n U /\ kn U p < kn U (p + 1) /\ kn U (n - 1) < kn U n.

(** Every knot except the two ends has multiplicity at most [p], the ends at
    most [p+1]: the B-splines of degree [p] are then continuous. *)
Definition continuous (p n : Z) (U : list R) : Prop :=
  forall i, (0 < i < n)%Z -> kn U i < kn U (i + p).

(** The curve with control points [P] (three coordinates each). *)
Definition curve_xyz (U : list R) (p : nat) (P : list (list R)) (u : R) : list R :=
  map (fun c => curve_sum U p (coords c P) u) [0%nat; 1%nat; 2%nat].

(** Distinct interior knots. *)
Definition strict (p n : Z) (U : list R) : Prop := forall i, (p <= i < n)%Z -> kn U i < kn U (i + 1).

(** Affine map of space: v |-> M v + b. *)
Definition affine (M : nat -> nat -> R) (b : nat -> R) (v : list R) : list R :=
  map (fun c => M c 0%nat * nth 0 v 0 + M c 1%nat * nth 1 v 0 + M c 2%nat * nth 2 v 0 + b c) [0%nat; 1%nat; 2%nat].

(** ** Surfaces *)

(** The surface with control net [P]: point (i,j) is row i*nv+j. *)
Definition surface_xyz (U V : list R) (p q nu nv : nat) (P : list (list R)) (u v : R) : list R :=
  map (fun c => surface_sum U V p q nu nv (coords c P) u v) [0%nat; 1%nat; 2%nat].
(** The polynomial the surface is over spans [s], [t]. *)
Definition surface_piece (U V : list R) (s t : Z) (p q nu nv : nat) (c : list R) (u v : R) : R :=
  zsum 0 nu (fun i => zsum 0 nv (fun j =>
    piece U s p i u * piece V t q j v * nth (Z.to_nat (i * Z.of_nat nv + j)) c 0)).
(** Column j and row i of the control net. *)
Definition net_col {A} (nu nv : nat) (P : list (list A)) (j : nat) : list (list A) :=
  map (fun i => nth (i * nv + j) P []) (seq 0 nu).
Definition net_row {A} (nv : nat) (P : list (list A)) (i : nat) : list (list A) :=
  map (fun j => nth (i * nv + j) P []) (seq 0 nv).
(** [G] is the mixed partial derivative of [F], [a] times in the first and [b]
    times in the second variable. *)
Definition mixed_partial (a b : nat) (F G : R -> R -> R) : Prop :=
  exists H, (forall v, nth_derivative a (fun u => F u v) (fun u => H u v)) /\
            (forall u, nth_derivative b (H u) (G u)).
Definition norm3 (v : list R) : R := sqrt (nth 0 v 0 * nth 0 v 0 + nth 1 v 0 * nth 1 v 0 + nth 2 v 0 * nth 2 v 0).

(** Point of space at parameter [t] of the segment from [a] to [b]. *)
Definition lerp (a b : list R) (t : R) : list R :=
  map (fun c => nth c a 0 + t * (nth c b 0 - nth c a 0)) [0%nat; 1%nat; 2%nat].

(** ** Vectors of any length *)
Definition dotR (a b : list R) : R := fold_right Rplus 0 (map (fun xy => fst xy * snd xy) (combine a b)).
Definition normR (a : list R) : R := sqrt (dotR a a).
Definition subR (a b : list R) : list R := map (fun xy => fst xy - snd xy) (combine a b).
Definition distR (a b : list R) : R := normR (subR a b).
(** Comparison by the entries with the given indices, first differing entry first. *)
Fixpoint lex_le (order : list nat) (a b : list R) : Prop :=
  match order with
  | [] => True
  | i :: t => nth i a 0 < nth i b 0 \/ (nth i a 0 = nth i b 0 /\ lex_le t a b)
  end.
