(** Notions used in the statements about whole fits of moved data (PropWhole.v). *)
From Verif Require Import Py Num ModelKnots ModelCurve ModelSurface ModelParam Spec SpecFit SpecSmooth ProofNum ProofCurve ProofKnots ProofInit.
Open Scope R_scope.

(** Every span holds p+1 different parameters of the rows [x; y; z; u]. *)
Definition enough (p : nat) (n : Z) (U : list R) (rows : list (list R)) : Prop :=
  plenty (S p) (Z.of_nat p) n U (fun u => exists r, In r rows /\ nth 3 r 0 = u).
(** The rows parameterize_curve returns for the curve over [U] with control points [P]. *)
Definition projected (p : nat) (U : list R) (P data rows : list (list R)) : Prop :=
  parameterize_curve (beh_of_curve3 (mkCurve (K := Exact) (Some (Z.of_nat p)) (Some (fin2 P)) (Some (fin U)) 0)) (mkData 3 (fin2 data)) = Ok (fin2 rows).
(** [Q] has the ends of [P] and, among those, the least squared distance to [rows]. *)
Definition best_fit (p : nat) (U : list R) (P rows Q : list (list R)) : Prop :=
  length Q = length P /\ Forall (fun r => length r = 3%nat) Q /\ nth 0 Q [] = nth 0 P [] /\ last Q [] = last P [] /\
  forall W, length W = length P -> nth 0 W [] = nth 0 P [] -> last W [] = last P [] -> curve_err U p Q rows <= curve_err U p W rows.
(** The same curve with each span halved. *)
Definition halved (p : nat) (Q P : list (list R)) : Prop :=
  len P = (2 * len Q - Z.of_nat p)%Z /\ Forall (fun r => length r = 3%nat) P /\
  forall u, curve_xyz (uniform (Z.of_nat p) (len P)) p P u = curve_xyz (uniform (Z.of_nat p) (len Q)) p Q u.
(** Control points on which an adaptive fit starts a round. *)
Inductive visited (p : nat) (data : list (list R)) (num : Z) (P0 : list (list R)) : list (list R) -> Prop :=
| visit_start : visited p data num P0 P0
| visit_next P x Q P' : visited p data num P0 P -> projected p (uniform (Z.of_nat p) (len P)) P data x ->
    best_fit p (uniform (Z.of_nat p) (len P)) P x Q -> (len Q < num)%Z -> halved p Q P' -> visited p data num P0 P'.
(** The same for rows [x; y; z; u; v] and a surface. *)
Definition enough2 (p q nu nv : nat) (U V : list R) (rows : list (list R)) : Prop :=
  plenty (S q) (Z.of_nat q) (Z.of_nat nv) V (fun v => plenty (S p) (Z.of_nat p) (Z.of_nat nu) U (fun u => exists r, In r rows /\ nth 3 r 0 = u /\ nth 4 r 0 = v)).
(** What the fit of a boundary with the ends [a] and [e] needs of the data: every
    projection on the way holds enough parameters. *)
Definition dense_segment (p : nat) (n : Z) (adaptive : bool) (a e : list R) (data : list (list R)) : Prop :=
  let Bz := uniform (Z.of_nat p) (Z.of_nat p + 1) in let S0 := segment a e (Z.of_nat p + 1) in
  if adaptive then forall P x, visited p data n S0 P -> projected p (uniform (Z.of_nat p) (len P)) P data x -> enough p (len P) (uniform (Z.of_nat p) (len P)) x
  else let U := uniform (Z.of_nat p) n in
    forall x, projected p Bz S0 data x -> enough p (Z.of_nat p + 1) Bz x /\
    forall Q y, best_fit p Bz S0 x Q -> projected p Bz Q data y -> enough p n U y /\
    forall R z, best_fit p U (segment a e n) y R -> projected p U R data z -> enough p n U z.
