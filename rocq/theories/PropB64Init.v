(** C89, C90: the initial curve and the ruled initial surface on IEEE 754
    doubles. *)
From Coq Require Import Reals Lra Lia ZArith List Floats.
From Verif Require Import Py PyLemmas Num ModelKnots ModelBasis ModelCurve ModelSurface ModelParam ModelInit ModelData Spec SpecB64 MathKnots
  ProofB64Init2 ProofB64Init3 PropB64 Examples.
Import ListNotations.
Open Scope R_scope.

(** ** C89: the initial curve *)
(** Control point i is within [e] of the point of the segment at i/(n-1); the first
    has the values of [start], the last is [end], bit for bit.  Each coordinate
    in which start and end are equal or at least 2^-900 apart stays between them
    and moves in one direction. *)
Theorem C89_initial_curve : forall (a b : list PrimFloat.float) p n M, (1 <= p)%Z -> (p + 1 <= n)%Z -> (n <= 2 ^ 49)%Z ->
  (3 <= len a)%Z -> (3 <= len b)%Z -> within (- M) M a -> within (- M) M b -> 0 <= M <= 2 ^ 1000 ->
  let e := 8 * ulp64 * M + 2 * (IZR n + 1) * tiny64 in
  exists (U : list PrimFloat.float) (P : list (list PrimFloat.float)),
    initialize_curve (K := Binary64) a b p n = Ok (mkCurve (K := Binary64) (Some p) (Some P) (Some U) 0) /\
    generate_uniform p n = Ok (U : list Binary64) /\ len P = n /\
    (forall i, (0 <= i < n)%Z -> near64 e (nth (Z.to_nat i) P []) (lerp (values a) (values b) (IZR i / IZR (n - 1)))) /\
    values (nth 0 P []) = firstn 3 (values a) /\ last P [] = firstn 3 b /\
    (forall c, (c < 3)%nat -> let x i := nth c (values (nth (Z.to_nat i) P [])) 0 in
       let s := nth c (values a) 0 in let t := nth c (values b) 0 in
       s = t \/ / 2 ^ 900 <= Rabs (t - s) -> forall i j, (0 <= i <= j)%Z -> (j < n)%Z ->
       s <= x i <= x j /\ x j <= t \/ t <= x j <= x i /\ x i <= s).
Proof. exact initial_curve_b64. Qed.
Print Assumptions C89_initial_curve.

(** The points of the initial curve: the segment from start to end, at a
    parameter which does not depend on them. *)
Theorem C89_points : forall p n, (1 <= p)%nat -> INR p <= 2 ^ 40 -> (p + 1 <= n)%nat -> (Z.of_nat n - Z.of_nat p <= 490000)%Z ->
  exists t : R -> R, t 0 = 0 /\ t 1 = 1 /\ (forall x, 0 <= x <= 1 -> 0 <= t x <= 1) /\
  forall (a b : list PrimFloat.float) M,
  (3 <= len a)%Z -> (3 <= len b)%Z -> within (- M) M a -> within (- M) M b -> 0 <= M <= 2 ^ 899 ->
  exists c : curve_obj Binary64, initialize_curve (K := Binary64) a b (Z.of_nat p) (Z.of_nat n) = Ok c /\
    forall x : Binary64, finite64 x -> 0 <= value x <= 1 -> exists y, single_point c x = Ok y /\
      near64 (15 * INR (S p) * (ulp64 * M + tiny64) + 2 * INR (S n) * tiny64) y (lerp (values a) (values b) (t (value x))).
Proof. exact initial_points_b64. Qed.
Print Assumptions C89_points.
Definition fa : list PrimFloat.float := [0.1; -2; 7]%float.
Definition fb : list PrimFloat.float := [4; 0.3; 7]%float.
Example C89_example : (3 <= len fa)%Z /\ (3 <= len fb)%Z /\ within (- 7) 7 fa /\ within (- 7) 7 fb /\ 0 <= 7 <= 2 ^ 899 /\ 0 <= 7 <= 2 ^ 1000 /\
  match initialize_curve (K := Binary64) fa fb 2 4 with Ok c => c_ctrl c | _ => None end =
    Some [[0.1; -2; 7]; [1.4000000000000001; -1.2333333333333334; 7]; [2.7000000000000002; -0.46666666666666679; 7]; [4; 0.3; 7]]%float.
Proof.
  assert (P1 : 7 <= 2 ^ 10) by (cbn [pow]; lra).
  assert (P2 : 2 ^ 10 <= 2 ^ 899) by (apply Rle_pow; [lra|lia]); assert (P3 : 2 ^ 10 <= 2 ^ 1000) by (apply Rle_pow; [lra|lia]).
  split; [cbv; discriminate|]; split; [cbv; discriminate|]; split; [clear; unfold fa; within_eval|]; split; [clear; unfold fb; within_eval|].
  split; [split; [clear; lra|exact (Rle_trans _ _ _ P1 P2)]|]; split; [split; [clear; lra|exact (Rle_trans _ _ _ P1 P3)]|]; vm_compute; reflexivity.
Qed.

(** Control points are not always the doubles closest to those of the segment. *)
Theorem C89_exact_refuted : exists P : list (list PrimFloat.float),
  match initialize_curve (K := Binary64) [0; 0; 0]%float [1; 1; 1]%float 2 11 with Ok c => c_ctrl c | _ => None end = Some P /\
  Rabs (value 0.3%float - 3 / 10) < Rabs (value (nth 0 (nth 3 P []) 0%float) - 3 / 10).
Proof.
  eexists; split; [vm_compute; reflexivity|]; cbn [nth].
  val_eval; unfold Rabs; repeat destruct Rcase_abs; lra.
Qed.
Print Assumptions C89_exact_refuted.

(** Closer together than 2^-900 a coordinate can leave the interval: from 0 to
    2^-1072 the last interior point lies half as far beyond the end. *)
Theorem C89_between_refuted : exists P : list (list PrimFloat.float),
  match initialize_curve (K := Binary64) [0; 0; 0]%float [0x1p-1072; 0; 1]%float 2 8 with Ok c => c_ctrl c | _ => None end = Some P /\
  nth 0 (nth 6 P []) 0%float = (0x1p-1072 + 0x1p-1073)%float /\
  (nth 0 (nth 7 P []) 0 <? nth 0 (nth 6 P []) 0)%float = true.
Proof. eexists; split; [vm_compute; reflexivity|]; split; vm_compute; reflexivity. Qed.
Print Assumptions C89_between_refuted.

(** ** C90: the ruled initial surface *)
Theorem C90_ruled_surface : forall (t b : bproblem Binary64) ct cb p q nu nv (T B : list (list PrimFloat.float)) (U : list PrimFloat.float) M,
  bp_degree t = Some (Z.of_nat p) -> bp_degree b = Some (Z.of_nat p) ->
  bp_num t = Some (Z.of_nat nu) -> bp_num b = Some (Z.of_nat nu) ->
  bp_fit t = Some ct -> bp_fit b = Some cb -> c_ctrl ct = Some T -> c_ctrl cb = Some B -> c_kv cb = Some U ->
  Forall (fun row => length row = 3%nat /\ within (- M) M row) T -> Forall (fun row => length row = 3%nat /\ within (- M) M row) B ->
  length T = nu -> length B = nu -> 0 <= M <= 2 ^ 889 ->
  (1 <= p)%nat -> INR p <= 2 ^ 40 -> (1 <= q)%nat -> INR q <= 2 ^ 40 -> (q + 1 <= nv)%nat -> (Z.of_nat nv - Z.of_nat q <= 490000)%Z ->
  within 0 1 U -> clamped (Z.of_nat p) (Z.of_nat nu) (values U) ->
  kn (values U) (Z.of_nat p) = 0 -> kn (values U) (Z.of_nat nu) = 1 ->
  (forall i, (Z.of_nat p <= i < Z.of_nat nu)%Z -> / 2 ^ 1000 <= kn (values U) (i + 1) - kn (values U) i) ->
  exists (V : list PrimFloat.float) (P : list (list PrimFloat.float)) (phi : R -> R), let S := mkSurf (K := Binary64) (Z.of_nat p) (Z.of_nat q) (Z.of_nat nu) (Z.of_nat nv) P U V in
    init_surface working_surface (Some t) (Some b) (Some (Z.of_nat q)) (Some (Z.of_nat nv)) = Ok S /\
    generate_uniform (Z.of_nat q) (Z.of_nat nv) = Ok (V : list Binary64) /\ length P = (nu * nv)%nat /\
    (forall i j, (i < nu)%nat -> (j < nv)%nat ->
       near64 (8 * ulp64 * M + 2 * tiny64) (nth (i * nv + j) P []) (lerp (values (nth i B [])) (values (nth i T [])) (INR j / INR (nv - 1)))) /\
    (forall i, (i < nu)%nat -> values (nth (i * nv) P []) = values (nth i B [])) /\
    phi 0 = 0 /\ phi 1 = 1 /\ (forall v, 0 <= v <= 1 -> 0 <= phi v <= 1) /\
    forall x y : Binary64, finite64 x -> 0 <= value x <= 1 -> (1 - value x <= 102 / 100000000 -> kn (values U) (Z.of_nat nu - 1) <= value x) ->
      finite64 y -> 0 <= value y <= 1 -> exists z, surf_point S x y = Ok z /\
      near64 (15 * INR (p + q + 1) * (ulp64 * M + tiny64)) z
        (lerp (curve_xyz (values U) p (map values B) (value x)) (curve_xyz (values U) p (map values T) (value x)) (phi (value y))).
Proof. exact ruled_surface_b64. Qed.
Print Assumptions C90_ruled_surface.
Definition fT : list (list PrimFloat.float) := [[0; 5; 0]; [1; 5.5; 0]; [3; 4; 1]; [4; 5; 0.5]; [6; 5; 0]]%float.
Definition fbound (P : list (list PrimFloat.float)) : bproblem Binary64 :=
  mkBP (K := Binary64) (Some 2%Z) None None None (Some 5%Z) false None None (Some (mkCurve (K := Binary64) (Some 2%Z) (Some P) (Some fU) 3)).
Example C90_example : bp_degree (fbound fT) = Some (Z.of_nat 2) /\ bp_num (fbound fT) = Some (Z.of_nat 5) /\
  Forall (fun row => length row = 3%nat /\ within (- 6) 6 row) fT /\ Forall (fun row => length row = 3%nat /\ within (- 6) 6 row) fP /\
  length fT = 5%nat /\ length fP = 5%nat /\ 0 <= 6 <= 2 ^ 889 /\ within 0 1 fU /\ clamped 2 5 (values fU) /\
  kn (values fU) 2 = 0 /\ kn (values fU) 5 = 1 /\
  (forall i, (2 <= i < 5)%Z -> / 2 ^ 1000 <= kn (values fU) (i + 1) - kn (values fU) i) /\
  match init_surface working_surface (Some (fbound fT)) (Some (fbound fP)) (Some 1%Z) (Some 4%Z) with Ok s => nth 5 (s_ctrl s) [] | _ => [] end =
    [1; 3.1666666666666665; 0]%float.
Proof.
  assert (P1 : 6 <= 2 ^ 10) by (cbn [pow]; lra).
  assert (P2 : 2 ^ 10 <= 2 ^ 889) by (apply Rle_pow; [lra|lia]).
  split; [reflexivity|]; split; [reflexivity|].
  split; [clear P1 P2; unfold fT; repeat (apply Forall_cons; [split; [reflexivity|within_eval]|]); apply Forall_nil|].
  split; [exact fP_within|]; split; [reflexivity|]; split; [reflexivity|]; split; [split; [clear; lra|exact (Rle_trans _ _ _ P1 P2)]|]; clear P1 P2; split; [exact fU_within|].
  split; [exact fU_clamped|]; split; [rewrite fU_values; kn_eval; lra|]; split; [rewrite fU_values; kn_eval; lra|].
  split; [rewrite fU_values; intros i Hi; apply gap_ok; assert (i = 2 \/ i = 3 \/ i = 4)%Z as [->|[->| ->]] by lia; kn_eval; lra|].
  vm_compute; reflexivity.
Qed.

(** The bottom row of the net is that of the bottom curve, but the top row is
    computed: with bottom 2^60 and top 1 it ends at 0. *)
Theorem C90_top_refuted : exists T B : list (list PrimFloat.float), T = [[1; 1; 1]; [1; 1; 1]]%float /\
  ruled_net (K := Binary64) T B 2 2 = Ok [[0x1p60; 0x1p60; 0x1p60]; [0; 0; 0]; [0; 0; 0]; [1; 1; 1]]%float.
Proof. exists [[1; 1; 1]; [1; 1; 1]]%float, [[0x1p60; 0x1p60; 0x1p60]; [0; 0; 0]]%float; split; [reflexivity|vm_compute; reflexivity]. Qed.
Print Assumptions C90_top_refuted.
