(** Notions used in the statements about fitting (PropFit.v). *)
From Verif Require Import Py Num ModelFit Spec.
Open Scope R_scope.

(** ** Masks: the entries of a list whose mask entry is [b]. *)
Fixpoint pick {A} (b : bool) (mask : list bool) (l : list A) : list A :=
  match mask, l with
  | m :: mask, x :: l => if Bool.eqb m b then x :: pick b mask l else pick b mask l
  | _, _ => []
  end.
Definition free {A} := @pick A false.
Definition kept {A} := @pick A true.

(** ** Least squares.  Squared length of R x - Q. *)
Definition sq_err (M : list (list R)) (Q x : list R) : R :=
  fold_right Rplus 0 (map (fun rq => (dotR (fst rq) x - snd rq) * (dotR (fst rq) x - snd rq)) (combine M Q)).
(** A matrix with [m] rows and [n] columns. *)
Definition matrix (m n : nat) (M : list (list R)) : Prop :=
  length M = m /\ Forall (fun r => length r = n) M.
Definition minimiser (n : nat) (M : list (list R)) (Q x : list R) : Prop :=
  length x = n /\ forall y, length y = n -> sq_err M Q x <= sq_err M Q y.
(** The solver finds a minimiser of every finite problem, and a condition number. *)
Definition least_squares (sv : solver Exact) : Prop :=
  (forall m n M Q, matrix m n M -> length Q = m ->
     exists x, sv_lstsq sv (Z.of_nat n) (fin2 M) (fin Q) = Ok (fin x) /\ minimiser n M Q x) /\
  (forall M, exists c, sv_cond sv (fin2 M) = Ok c).

(** Distance of a curve to parameterised points [x; y; z; u], squared and summed. *)
Definition point_err (q r : list R) : R :=
  fold_right Rplus 0 (map (fun c => (nth c q 0 - nth c r 0) * (nth c q 0 - nth c r 0)) [0%nat; 1%nat; 2%nat]).
Definition curve_err (U : list R) (p : nat) (P rows : list (list R)) : R :=
  fold_right Rplus 0 (map (fun r => point_err (curve_xyz U p P (nth 3 r 0)) r) rows).
(** The same for a surface and points [x; y; z; u; v]. *)
Definition surface_err (U V : list R) (p q nu nv : nat) (P rows : list (list R)) : R :=
  fold_right Rplus 0 (map (fun r => point_err (surface_xyz U V p q nu nv P (nth 3 r 0) (nth 4 r 0)) r) rows).

(** ** A solver (Gram-Schmidt), for examples: [gs_columns cols b] gives
    coefficients and residual. *)
Section Solver.
Context {K : Num}.
Fixpoint gs_columns (cols : list (list K)) (b : list K) : list K * list K :=
  match cols with
  | [] => ([], b)
  | v :: vs =>
      let dw := gs_columns vs v in
      let cr := gs_columns vs b in
      let ww := vdot (snd dw) (snd dw) in
      if (ww =? 0)%num then ((0 : K)%num :: fst cr, snd cr)
      else let t := (vdot (snd cr) (snd dw) / ww)%num in
           (t :: vmap2 (fun c d => (c - t * d)%num) (fst cr) (fst dw),
            vmap2 (fun r w => (r - t * w)%num) (snd cr) (snd dw))
  end.
Definition gs_solver : solver K :=
  mkSolver (fun _ => Ok (1 : K)%num)
    (fun n M b => Ok (fst (gs_columns (map (fun j => map (fun r => nth j r (0 : K)%num) M) (seq 0 (Z.to_nat n))) b))).
End Solver.
Arguments gs_solver K : clear implicits.

(** Number of parameterised points [x; y; z; u] (resp. [x; y; z; u; v]) with a
    parameter outside the domain. *)
Definition outsideb (lo hi x : R) : bool := if Rlt_dec x lo then true else if Rlt_dec hi x then true else false.
Definition curve_strays (U : list R) (p n : Z) (rows : list (list R)) : nat :=
  length (filter (fun r => outsideb (kn U p) (kn U n) (nth 3 r 0)) rows).
Definition surf_strays (U V : list R) (p q nu nv : Z) (rows : list (list R)) : nat :=
  length (filter (fun r => outsideb (kn U p) (kn U nu) (nth 3 r 0) || outsideb (kn V q) (kn V nv) (nth 4 r 0)) rows).
