(** C43: the initial curve. *)
From Coq Require Import Floats.
From Verif Require Import Py Num ModelKnots ModelCurve ModelInit Spec ProofInit.
Open Scope R_scope.

Theorem C43_initial_curve : forall a b p n, (1 <= p)%Z -> (p + 1 <= n)%Z -> (3 <= len a)%Z -> (3 <= len b)%Z ->
  exists c U P, initialize_curve (fin a) (fin b) p n = Ok c /\
    c_degree c = Some p /\ c_kv c = Some (fin U) /\ c_ctrl c = Some (fin2 P) /\
    clamped p n U /\ (forall i, (p <= i <= n)%Z -> kn U i = (IZR i - IZR p) / (IZR n - IZR p)) /\
    len P = n /\ (forall i, (0 <= i < n)%Z -> nth (Z.to_nat i) P [] = lerp a b (IZR i / IZR (n - 1))).
Proof. exact initialize_spec. Qed.
Print Assumptions C43_initial_curve.
(** The curve runs inside the segment, from its start to its end.  (With more
    than 900000 spans the last one is narrower than the end tolerance.) *)
Theorem C43_initial_curve_segment : forall a b p n c, (1 <= p)%Z -> (p + 1 <= n)%Z -> (n - p <= 900000)%Z ->
  (3 <= len a)%Z -> (3 <= len b)%Z -> initialize_curve (fin a) (fin b) p n = Ok c ->
  (forall u, 0 <= u <= 1 -> exists t, 0 <= t <= 1 /\ single_point c (Fin u : Exact) = Ok (fin (lerp a b t))) /\
  single_point c (Fin 0 : Exact) = Ok (fin (lerp a b 0)) /\ single_point c (Fin 1 : Exact) = Ok (fin (lerp a b 1)).
Proof. exact initialize_segment. Qed.
Print Assumptions C43_initial_curve_segment.
Example C43_example : (1 <= 3)%Z /\ (3 + 1 <= 5)%Z /\ (3 <= len [0; 1; 2])%Z /\
  c_ctrl (match initialize_curve ([0; 0; 4]%float : list Binary64) [4; 8; 0]%float 3 5 with Ok c => c | _ => curve_init None None end)
  = Some [[0; 0; 4]; [1; 2; 3]; [2; 4; 2]; [3; 6; 1]; [4; 8; 0]]%float /\
  c_kv (match initialize_curve ([0; 0; 4]%float : list Binary64) [4; 8; 0]%float 3 5 with Ok c => c | _ => curve_init None None end)
  = Some [0; 0; 0; 0; 0.5; 1; 1; 1; 1]%float.
Proof. split; [lia|]; split; [lia|]; split; [unfold len; cbn; lia|]; split; vm_compute; reflexivity. Qed.

(** Fewer control points than the degree, or a degree below 1. *)
Theorem C43_too_few : forall (K : Num) (a b : list K) p n, (n < p \/ p < 1)%Z -> initialize_curve a b p n = Err ValueError.
Proof. exact initialize_small. Qed.
Print Assumptions C43_too_few.
(** As many control points as the degree are let through, but the curve is left
    without knots. *)
Theorem C43_no_knots : forall a b p, (1 <= p)%Z -> (3 <= len a)%Z -> (3 <= len b)%Z ->
  exists c P, initialize_curve (fin a : list Exact) (fin b) p p = Ok c /\
    c_degree c = Some p /\ c_ctrl c = Some P /\ zlen P = p /\ c_kv c = None.
Proof. exact initialize_equal. Qed.
Print Assumptions C43_no_knots.
Theorem C43_planar : forall (K : Num) (a b : list K) p n, (1 <= p <= n)%Z -> (zlen a < 3 \/ zlen b < 3)%Z ->
  initialize_curve a b p n = Err IndexError.
Proof. exact initialize_planar. Qed.
Print Assumptions C43_planar.
(** With the curve class of the repository, no initial curve ever results. *)
Theorem C43_repo_class : forall (K : Num) (a b : list K) p n c, initialize_curve_repo a b p n <> Ok c.
Proof. exact initialize_repo. Qed.
Print Assumptions C43_repo_class.
Example C43_failures : initialize_curve ([0; 0]%float : list Binary64) [4; 8; 0]%float 3 5 = Err IndexError /\
  initialize_curve ([0; 0; 0]%float : list Binary64) [4; 8; 0]%float 3 2 = Err ValueError /\
  initialize_curve_repo ([0; 0; 0]%float : list Binary64) [4; 8; 0]%float 3 5 = Err ValueError.
Proof. repeat split. Qed.
