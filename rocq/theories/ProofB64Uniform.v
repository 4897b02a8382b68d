(** Curves and surfaces over the knots of [generate_uniform], on binary64 numbers. *)
From Coq Require Import Reals Lra Lia ZArith List Floats.
From Flocq Require Import Core.Core.
From Verif Require Import Py PyLemmas Num ModelKnots ModelBasis ModelCurve ModelSurface Spec SpecB64
  ProofB64 ProofB64Basis ProofB64Span ProofB64Curve ProofB64Surface ProofB64Knots.
Import ListNotations.
Open Scope R_scope.

(** What the error bounds need, for up to 490000 spans. *)
Lemma uniform_good p n : (0 <= p)%Z -> (p + 1 <= n)%Z -> (n - p <= 490000)%Z ->
  exists U : list PrimFloat.float, generate_uniform p n = Ok (U : list Binary64) /\ within 0 1 U /\ clamped p n (values U) /\
    kn (values U) p = 0 /\ kn (values U) n = 1 /\
    (forall i, (p <= i < n)%Z -> / 2 ^ 1000 <= kn (values U) (i + 1) - kn (values U) i) /\
    (forall x, x <= 1 -> 1 - x <= 102 / 100000000 -> kn (values U) (n - 1) <= x).
Proof.
  intros Hp Hn Hb; destruct (generate_uniform_b64 p n Hp Hn ltac:(lia)) as (U & E & W & C & K0 & K1 & _ & G).
  assert (HmR : IZR n - IZR p = IZR (n - p)) by (rewrite minus_IZR; reflexivity); rewrite HmR in G.
  assert (A : 1 <= IZR (n - p) <= 490000) by (split; apply IZR_le; lia).
  assert (B : 102 / 100000000 <= 1 / (2 * IZR (n - p))).
  { apply Rmult_le_reg_r with (2 * IZR (n - p)); [lra|]; unfold Rdiv at 2; rewrite Rmult_1_l, Rinv_l by lra; lra. }
  exists U; split; [exact E|]; split; [exact W|]; split; [exact C|].
  split; [apply K0; lia|]; split; [apply K1; lia|]; split.
  - intros i Hi; pose proof (G i Hi).
    assert (/ 2 ^ 1000 <= / 2 ^ 20) by (apply Rinv_le_contravar; [apply pow_lt; lra|apply Rle_pow; [lra|lia]]).
    assert (/ 2 ^ 20 <= 102 / 100000000) by (apply Rle_trans with (/ 1000000); [apply Rinv_le_contravar; [lra|cbn [pow]; lra]|lra]).
    lra.
  - intros x Hx1 Hx; pose proof (G (n - 1)%Z ltac:(lia)) as G1; replace (n - 1 + 1)%Z with n in G1 by lia.
    rewrite (K1 n) in G1 by lia; lra.
Qed.

Lemma uniform_curve_b64 p P d (x : Binary64) M : (1 <= p)%nat -> INR p <= 2 ^ 40 -> (Z.of_nat p + 1 <= len P)%Z ->
  (len P - Z.of_nat p <= 490000)%Z ->
  Forall (fun row => length row = 3%nat /\ within (- M) M row) P -> 0 <= M <= 2 ^ 900 ->
  finite64 x -> 0 <= value x <= 1 ->
  exists U : list PrimFloat.float, generate_uniform (Z.of_nat p) (len P) = Ok (U : list Binary64) /\
  check_knot_vector (Z.of_nat p) (NdArray (U : list Binary64)) (len P) = Ok true /\
  exists y, single_point (mkCurve (K := Binary64) (Some (Z.of_nat p)) (Some P) (Some U) d) x = Ok y /\
    near64 (10 * INR (S p) * (ulp64 * M + tiny64)) y (curve_xyz (values U) p (map values P) (value x)).
Proof.
  intros Hp1 Hp Hn Hb HP HM Fx Hx.
  destruct (uniform_good (Z.of_nat p) (len P) ltac:(lia) Hn Hb) as (U & E & W & C & K0 & K1 & G & T).
  exists U; split; [exact E|]; split.
  - pose proof (uniform_accepted_b64 (Z.of_nat p) (len P) ltac:(lia) Hn ltac:(lia)) as A; rewrite E in A; exact A.
  - apply single_point_b64; try assumption; apply T; lra.
Qed.

Lemma uniform_surface_b64 p q nu nv P (x y : Binary64) M : (1 <= p)%nat -> INR p <= 2 ^ 40 -> (1 <= q)%nat -> INR q <= 2 ^ 40 ->
  (p + 1 <= nu)%nat -> (Z.of_nat nu - Z.of_nat p <= 490000)%Z -> (q + 1 <= nv)%nat -> (Z.of_nat nv - Z.of_nat q <= 490000)%Z ->
  length P = (nu * nv)%nat -> Forall (fun row => length row = 3%nat /\ within (- M) M row) P -> 0 <= M <= 2 ^ 890 ->
  finite64 x -> 0 <= value x <= 1 -> finite64 y -> 0 <= value y <= 1 ->
  exists U V : list PrimFloat.float, generate_uniform (Z.of_nat p) (Z.of_nat nu) = Ok (U : list Binary64) /\
  generate_uniform (Z.of_nat q) (Z.of_nat nv) = Ok (V : list Binary64) /\
  exists z, surf_point (mkSurf (K := Binary64) (Z.of_nat p) (Z.of_nat q) (Z.of_nat nu) (Z.of_nat nv) P U V) x y = Ok z /\
    near64 (11 * INR (p + q + 1) * (ulp64 * M + tiny64)) z
      (surface_xyz (values U) (values V) p q nu nv (map values P) (value x) (value y)).
Proof.
  intros Hp1 Hp Hq1 Hq Hnu Bu Hnv Bv HL HP HM Fx Hx Fy Hy.
  destruct (uniform_good (Z.of_nat p) (Z.of_nat nu) ltac:(lia) ltac:(lia) Bu) as (U & EU & WU & CU & KU0 & KU1 & GU & TU).
  destruct (uniform_good (Z.of_nat q) (Z.of_nat nv) ltac:(lia) ltac:(lia) Bv) as (V & EV & WV & CV & KV0 & KV1 & GV & TV).
  exists U, V; split; [exact EU|]; split; [exact EV|].
  apply surf_point_b64; try assumption; [apply TU; lra|apply TV; lra].
Qed.
