(** C87: the VTK sampling grid on IEEE 754 doubles. *)
From Coq Require Import Reals Lra Lia ZArith List Floats.
From Verif Require Import Py PyLemmas Num ModelKnots ModelBasis ModelSurface ModelParam ModelIO Spec SpecB64
  ProofB64Vtk PropB64 PropB64Param.
Import ListNotations.
Open Scope R_scope.

(** ** C87: the grid for every [n_tri] up to 2^49.  [t] are the sampled parameters;
    the two tests are on doubles: the first says that np.arange stops at [t n],
    the second that the buffer has n+1 rows. *)
Theorem C87_grid : forall n, (1 <= n <= 2 ^ 49)%Z -> exists t : Z -> PrimFloat.float, spread64 n t /\
  forall (point : Binary64 -> Binary64 -> res (list Binary64)) (q : Z -> Z -> list PrimFloat.float),
  (forall i j, (0 <= i <= n)%Z -> (0 <= j <= n)%Z -> point (t i) (t j) = Ok (q i j : list Binary64) /\ length (q i j) = 3%nat) ->
  (forall u v, finite64 v -> 1 < value v -> point u v = Err ValueError) ->
  vtk_grid point n =
    if ((1 + 1 / ofZ n) / (1 / ofZ n) <=? (ofZ (n + 1) : Binary64))%num then
      if ((ofZ (n + 1) : Binary64) <=? (1 + 1 / ofZ n) * ofZ n)%num then
        Ok (map (fun ij => (q (fst ij) (snd ij) ++ [t (fst ij); t (snd ij)] : list Binary64)) (list_prod (zrange 0 (n + 1)) (zrange 0 (n + 1))))
      else Err IndexError
    else Err ValueError.
Proof. exact vtk_outcome64. Qed.
Print Assumptions C87_grid.
(** The plane (u, v, 0), refused above 1. *)
Definition sheet64 (u v : Binary64) : res (list Binary64) := if (1 <? v)%num then Err ValueError else Ok [u; v; 0%num].
Example C87_grid_example : (forall t, spread64 100 t -> forall i j, (0 <= i <= 100)%Z -> (0 <= j <= 100)%Z ->
    sheet64 (t i) (t j) = Ok ([t i; t j; 0]%float : list Binary64)) /\
  (forall u v, finite64 v -> 1 < value v -> sheet64 u v = Err ValueError) /\
  vtk_grid sheet64 6 = Err ValueError /\ vtk_grid sheet64 47 = Err IndexError.
Proof.
  split; [|split; [|split; vm_compute; reflexivity]].
  - intros t Ht i j Hi Hj; destruct (proj1 Ht j Hj) as ((Fj & Vj) & _); unfold sheet64.
    rewrite (above_one (t j) Fj); case Rlt_dec; intros H; [exfalso; lra|reflexivity].
  - intros u v Fv Vv; unfold sheet64; rewrite (above_one v Fv); case Rlt_dec; intros H; [reflexivity|contradiction].
Qed.
(** Powers of two always work, and so does the default 100 ... *)
Theorem C87_powers : forall k, (0 <= k <= 49)%Z ->
  ((1 + 1 / ofZ (2 ^ k)) / (1 / ofZ (2 ^ k)) <=? (ofZ (2 ^ k + 1) : Binary64))%num = true /\
  ((ofZ (2 ^ k + 1) : Binary64) <=? (1 + 1 / ofZ (2 ^ k)) * ofZ (2 ^ k))%num = true.
Proof. exact power_exact. Qed.
Print Assumptions C87_powers.
Theorem C87_default :
  ((1 + 1 / ofZ 100) / (1 / ofZ 100) <=? (ofZ 101 : Binary64))%num = true /\
  ((ofZ 101 : Binary64) <=? (1 + 1 / ofZ 100) * ofZ 100)%num = true.
Proof. vm_compute; split; reflexivity. Qed.
Print Assumptions C87_default.
(** ... but among the first hundred these run past the end, and those have a short buffer. *)
Example C87_failing :
  filter (fun n => negb ((1 + 1 / ofZ n) / (1 / ofZ n) <=? (ofZ (n + 1) : Binary64))%num) (zrange 1 101)
    = [6; 9; 21; 24; 28; 29; 30; 38; 46; 49; 54; 57; 73; 81; 87; 94; 96]%Z /\
  filter (fun n => negb ((ofZ (n + 1) : Binary64) <=? (1 + 1 / ofZ n) * ofZ n)%num) (zrange 1 101) = [47; 55; 58; 77; 98]%Z.
Proof. vm_compute; split; reflexivity. Qed.

(** What surf_to_vtk does for a surface over generated knots: the written points. *)
Theorem C87_surface : forall p q nu nv P M n, (1 <= p)%nat -> INR p <= 2 ^ 40 -> (1 <= q)%nat -> INR q <= 2 ^ 40 ->
  (p + 1 <= nu)%nat -> (Z.of_nat nu - Z.of_nat p <= 490000)%Z -> (q + 1 <= nv)%nat -> (Z.of_nat nv - Z.of_nat q <= 490000)%Z ->
  length P = (nu * nv)%nat -> Forall (fun row => length row = 3%nat /\ within (- M) M row) P -> 0 <= M <= 2 ^ 890 ->
  (1 <= n <= 2 ^ 49)%Z ->
  exists (U V : list PrimFloat.float) (t : Z -> PrimFloat.float) (y : Z -> Z -> list PrimFloat.float),
  generate_uniform (Z.of_nat p) (Z.of_nat nu) = Ok (U : list Binary64) /\
  generate_uniform (Z.of_nat q) (Z.of_nat nv) = Ok (V : list Binary64) /\ spread64 n t /\
  (forall i j, (0 <= i <= n)%Z -> (0 <= j <= n)%Z -> near64 (11 * INR (p + q + 1) * (ulp64 * M + tiny64)) (y i j)
      (surface_xyz (values U) (values V) p q nu nv (map values P) (value (t i)) (value (t j)))) /\
  forall (T : Type) (dl : list (list Binary64) -> res T) (mw : text -> list (list Binary64) -> T -> io unit) name d,
  let grid := list_prod (zrange 0 (n + 1)) (zrange 0 (n + 1)) in
  surf_to_vtk dl mw (Some (surf_point (mkSurf (K := Binary64) (Z.of_nat p) (Z.of_nat q) (Z.of_nat nu) (Z.of_nat nv) P U V))) name n d =
    if ((1 + 1 / ofZ n) / (1 / ofZ n) <=? (ofZ (n + 1) : Binary64))%num then
      if ((ofZ (n + 1) : Binary64) <=? (1 + 1 / ofZ n) * ofZ n)%num then
        match dl (map (fun ij => ([t (fst ij); t (snd ij)] : list Binary64)) grid) with
        | Ok simplices => mw name (map (fun ij => (y (fst ij) (snd ij) : list Binary64)) grid) simplices d
        | Err e => (d, Err e)
        | Diverge => (d, Diverge)
        end
      else (d, Err IndexError)
    else (d, Err ValueError).
Proof. exact vtk_library64. Qed.
Print Assumptions C87_surface.
Example C87_surface_example : (2 + 1 <= 5)%nat /\ (Z.of_nat 5 - Z.of_nat 2 <= 490000)%Z /\ (1 + 1 <= 3)%nat /\
  length fQ = (5 * 3)%nat /\ Forall (fun row => length row = 3%nat /\ within (- 7) 7 row) fQ /\ 0 <= 7 <= 2 ^ 890 /\ (1 <= 100 <= 2 ^ 49)%Z.
Proof.
  split; [lia|]; split; [lia|]; split; [lia|]; split; [reflexivity|]; split; [exact fQ_within|].
  split; [|lia]; split; [lra|]; pose proof (proj1 (small399 7 ltac:(lra))); assert (2 ^ 399 <= 2 ^ 890) by (apply Rle_pow; [lra|lia]); lra.
Qed.
